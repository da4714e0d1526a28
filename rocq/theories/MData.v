(** Creating data definition properties, data types, their elements, mapping sets and units.
    Source: /repo/src/autosar/xml/element.py and xml/base.py.  No proofs in this file.
    Positional arguments other than the name are passed as keywords.  Objects are values; functions
    that change one return the changed value.
    Simplification: objects have no identity, so an element that is given to two types is in both. *)
From Verif Require Import Base MNum MXml MEnum MRefTab MRef MCodec MElem0 MElem1 MElemA MElemB MElemC MElem2 MElemD MElem3 MElem4 MElemE MElem5 MElemF MArxml MFind MValue MEvent MPort MAccess MRunnable MIface.
Open Scope list_scope.

(** ** Attribute values *)
(** isinstance(value, <class>) for the classes that occur here, xml/base.py:102-110, element.py:1740, 1744,
    1756, 1762, 1782, 1835, 1927, 1974, 1983, 2277, 2286, 2351 *)
Definition annotation_of (o : lib_object) : option Annotation := match o with OAnnotation e => Some e | _ => None end.
Definition bits_of (o : lib_object) : option SwBitRepresentation := match o with OSwBitRepresentation e => Some e | _ => None end.
Definition text_props_of (o : lib_object) : option SwTextProps := match o with OSwTextProps e => Some e | _ => None end.
Definition pointer_of (o : lib_object) : option SwPointerTargetProps := match o with OSwPointerTargetProps e => Some e | _ => None end.
Definition conditional_of (o : lib_object) : option SwDataDefPropsConditional := match o with OSwDataDefPropsConditional e => Some e | _ => None end.
Definition type_element_of (o : lib_object) : option ImplementationDataTypeElement := match o with OImplementationDataTypeElement e => Some e | _ => None end.
Definition array_element_of (o : lib_object) : option ApplicationArrayElement := match o with OApplicationArrayElement e => Some e | _ => None end.
Definition record_element_of (o : lib_object) : option ApplicationRecordElement := match o with OApplicationRecordElement e => Some e | _ => None end.
Definition type_map_of (o : lib_object) : option DataTypeMap := match o with ODataTypeMap e => Some e | _ => None end.
Definition symbol_props_of (o : lib_object) : option SymbolProps := match o with OSymbolProps e => Some e | _ => None end.
Definition presentation_of (o : lib_object) : option DisplayPresentation := match o with ODisplayPresentation e => Some e | _ => None end.
Definition array_policy_of (o : lib_object) : option ArrayImplPolicy := match o with OArrayImplPolicy e => Some e | _ => None end.
Definition handling_of (o : lib_object) : option ArraySizeHandling := match o with OArraySizeHandling e => Some e | _ => None end.
Definition semantics_of (o : lib_object) : option ArraySizeSemantics := match o with OArraySizeSemantics e => Some e | _ => None end.
Definition impl_policy_of (o : lib_object) : option SwImplPolicy := match o with OSwImplPolicy e => Some e | _ => None end.
(** int(value), xml/base.py:140-141.  Simplification: ValueError stands for the OverflowError of an
    infinite float. *)
Definition int_of_arg (a : arg) : result Z :=
  match a with
  | ABool b => Ok (if b then 1 else 0)%Z
  | ANum (NInt z) => Ok z
  | ANum (NFloat (FFin neg c e)) => Ok (signed neg (if (0 <=? e)%Z then c * 10 ^ Z.to_N e else c / 10 ^ Z.to_N (- e))%N)
  | ANum (NFloat _) => Err ValueError
  | AStr s => match int10 s with Some z => Ok z | None => Err ValueError end
  | _ => Err TypeError
  end.
(** _assign_optional with int, xml/base.py:48-64, 136-144 *)
Definition opt_int : arg -> result (option Z) := optional int_of_arg.
(** _assign_optional with str, xml/base.py:48-64, 136-144 *)
Definition opt_text : arg -> result (option string) := optional str_of_arg.
(** alignment, xml/base.py:66-86: an int or a text with the pattern.  A bool is an int; it is kept as the text
    that is written for it, writer.py:1470-1471. *)
Definition alignment_of (a : arg) : result index :=
  match a with
  | ABool b => Ok (IText (if b then "True" else "False"))
  | ANum (NInt z) => Ok (IInt z)
  | AStr s => if alignment_ok s then Ok (IText s) else Err ValueError
  | _ => Err TypeError
  end.
(** display_format, xml/base.py:66-86.  Simplification: an int is stored, and cannot be written then
    (writer.py:1483-1484); TypeError stands for that. *)
Definition format_of (a : arg) : result string :=
  match a with
  | AStr s => if display_format_ok s then Ok s else Err ValueError
  | _ => Err TypeError
  end.
(** intended_resolution, element.py:1774-1778.  Simplification: a bool is stored as the int it equals. *)
Definition resolution_of (a : arg) : result pynum :=
  match a with
  | ABool b => Ok (NInt (if b then 1 else 0))
  | ANum n => Ok n
  | _ => Err TypeError
  end.
(** annotations, element.py:1739-1751: an annotation or something that yields annotations *)
Definition annotations_of (a : arg) : result (list Annotation) := objects annotation_of a.
(** for elem in a: append(elem), element.py:1912-1914, 1970-1972: TypeError for what cannot be iterated *)
Definition each_of {A} (pick : lib_object -> option A) (a : arg) : result (list A) :=
  match a with
  | ANone => Ok []
  | _ => match iterable a with Some l => mapM (strict pick) l | None => Err TypeError end
  end.
(** _assign_optional_strict with a reference class, xml/base.py:88-110 *)
Definition opt_ref_strict (c : ref_class) : arg -> result (option ref) :=
  optional (fun a => match as_ref c a with Some r => Ok r | None => Err TypeError end).

(** ** Data definition properties *)
(** SwBitRepresentation.__init__, element.py:1618-1625 *)
Definition new_bit_representation (kw : keyword_args) : result SwBitRepresentation :=
  let* _ := check_keywords ["position"; "num_bits"] kw in
  let* position := opt_int (kwarg "position" kw) in
  let* num_bits := opt_int (kwarg "num_bits" kw) in
  Ok (mkSwBitRepresentation position num_bits).
(** SwTextProps.__init__, element.py:1634-1647 *)
Definition new_text_props (kw : keyword_args) : result SwTextProps :=
  let* _ := check_keywords ["array_size_semantics"; "max_text_size"; "base_type_ref"; "fill_char"] kw in
  let* semantics := optional (strict semantics_of) (kwarg "array_size_semantics" kw) in
  let* size := opt_int (kwarg "max_text_size" kw) in
  let* base := opt_ref rc_SwBaseTypeRef (kwarg "base_type_ref" kw) in
  let* fill := opt_int (kwarg "fill_char" kw) in
  Ok (mkSwTextProps semantics size base fill).
(** SwPointerTargetProps.__init__, element.py:1656-1673 *)
Definition new_pointer_target_props (kw : keyword_args) : result SwPointerTargetProps :=
  let* _ := check_keywords ["target_category"; "sw_data_def_props"; "function_ptr_signature_ref"] kw in
  let* category := opt_text (kwarg "target_category" kw) in
  let* signature := opt_ref rc_FunctionPtrSignatureRef (kwarg "function_ptr_signature_ref" kw) in
  let* props := optional props_of_arg (kwarg "sw_data_def_props" kw) in
  Ok (mkSwPointerTargetProps category props signature).
(** The parameters of SwDataDefPropsConditional, element.py:1682-1703 *)
Definition conditional_keywords : list string :=
  ["display_presentation"; "step_size"; "annotations"; "sw_addr_method_ref"; "base_type_ref"; "compu_method_ref"; "data_constraint_ref";
   "impl_data_type_ref"; "unit_ref"; "alignment"; "bit_representation"; "calibration_access"; "text_props"; "display_format"; "impl_policy";
   "additional_native_type_qualifier"; "intended_resolution"; "interpolation_method"; "is_virtual"; "ptr_target_props"].
(** SwDataDefPropsConditional.__init__, element.py:1682-1782 *)
Definition new_conditional (kw : keyword_args) : result SwDataDefPropsConditional :=
  let* _ := check_keywords conditional_keywords kw in
  let* presentation := optional (strict presentation_of) (kwarg "display_presentation" kw) in
  let* step := opt_float (kwarg "step_size" kw) in
  let* annotations := annotations_of (kwarg "annotations" kw) in
  let* addr := opt_ref rc_SwAddrMethodRef (kwarg "sw_addr_method_ref" kw) in
  let* alignment := optional alignment_of (kwarg "alignment" kw) in
  let* base := opt_ref rc_SwBaseTypeRef (kwarg "base_type_ref" kw) in
  let* bits := optional (strict bits_of) (kwarg "bit_representation" kw) in
  let* access := optional (strict access_of) (kwarg "calibration_access" kw) in
  let* text := optional (strict text_props_of) (kwarg "text_props" kw) in
  let* compu := opt_ref rc_CompuMethodRef (kwarg "compu_method_ref" kw) in
  let* constraint := opt_ref rc_DataConstraintRef (kwarg "data_constraint_ref" kw) in
  let* impl := opt_ref rc_ImplementationDataTypeRef (kwarg "impl_data_type_ref" kw) in
  let* unit := opt_ref rc_UnitRef (kwarg "unit_ref" kw) in
  let* format := optional format_of (kwarg "display_format" kw) in
  let* policy := optional (strict impl_policy_of) (kwarg "impl_policy" kw) in
  let* qualifier := opt_text (kwarg "additional_native_type_qualifier" kw) in
  let* resolution := optional resolution_of (kwarg "intended_resolution" kw) in
  let* interpolation := opt_text (kwarg "interpolation_method" kw) in
  let* virtual := opt_bool (kwarg "is_virtual" kw) in
  let* pointer := optional (strict pointer_of) (kwarg "ptr_target_props" kw) in
  Ok (mkSwDataDefPropsConditional presentation step annotations addr alignment base bits access text compu constraint format impl policy qualifier
        resolution interpolation virtual pointer unit).
(** SwDataDefProps.__init__, element.py:1801-1811, append, 1831-1838 *)
Definition new_props (variants : arg) : result SwDataDefProps :=
  let* l := one_or_list (strict conditional_of) variants in Ok (mkSwDataDefProps l).
(** SwDataDefProps.append, element.py:1831-1838 *)
Definition append_variant (p : SwDataDefProps) (a : arg) : result SwDataDefProps :=
  let* c := strict conditional_of a in Ok (mkSwDataDefProps (SwDataDefProps_variants p ++ [c])).
(** SwDataDefProps.__getitem__, element.py:1813-1817: a negative index counts from the end *)
Definition variant_at (p : SwDataDefProps) (i : Z) : result SwDataDefPropsConditional :=
  let l := SwDataDefProps_variants p in
  let j := if (i <? 0)%Z then (i + Z.of_nat (List.length l))%Z else i in
  if (j <? 0)%Z then Err IndexError
  else match nth_error l (Z.to_nat j) with Some c => Ok c | None => Err IndexError end.

(** ** Implementation data types *)
(** SymbolProps, element.py:1874-1880; ImplementationProps.__init__, 1866-1871 *)
Definition new_symbol_props (name : string) (kw : keyword_args) : result SymbolProps :=
  let* _ := check_keywords ["symbol"] kw in
  let* symbol := opt_text (kwarg "symbol" kw) in
  Ok (mkSymbolProps name symbol).
(** ImplementationDataTypeElement.__init__, element.py:1889-1921; append, 1923-1930 *)
Definition new_type_element (name : string) (kw : keyword_args) : result ImplementationDataTypeElement :=
  let* _ := check_keywords (["sw_data_def_props"; "array_size"; "array_impl_policy"; "array_size_handling"; "array_size_semantics"; "sub_elements"; "is_optional"]
                              ++ identifiable_keywords) kw in
  let* i := new_identifiable name kw in
  let* size := opt_count (kwarg "array_size" kw) in
  let* policy := optional (strict array_policy_of) (kwarg "array_impl_policy" kw) in
  let* handling := optional (strict handling_of) (kwarg "array_size_handling" kw) in
  let* semantics := optional (strict semantics_of) (kwarg "array_size_semantics" kw) in
  let* is_optional := opt_bool (kwarg "is_optional" kw) in
  let* elements := each_of type_element_of (kwarg "sub_elements" kw) in
  let* props := optional props_of_arg (kwarg "sw_data_def_props" kw) in
  Ok (mkImplementationDataTypeElement i props size policy handling semantics elements is_optional).
(** AutosarDataType.__init__, element.py:1846-1858 *)
Definition new_type (name : string) (kw : keyword_args) : result (identifiable * option SwDataDefProps) :=
  let* i := new_identifiable name kw in
  let* props := optional props_of_arg (kwarg "sw_data_def_props" kw) in
  Ok (i, props).
(** The keyword parameters of AutosarDataType, element.py:1846-1849 *)
Definition type_keywords : list string := "sw_data_def_props" :: identifiable_keywords.
(** ImplementationDataType.__init__, element.py:1953-1977; append, 1979-1986 *)
Definition new_implementation_type (name : string) (kw : keyword_args) : result ImplementationDataType :=
  let* _ := check_keywords (["dynamic_array_size_profile"; "is_struct_with_optional_element"; "sub_elements"; "symbol_props"; "type_emitter"] ++ type_keywords) kw in
  let* (i, props) := new_type name kw in
  let* profile := opt_text (kwarg "dynamic_array_size_profile" kw) in
  let* optional_elements := opt_bool (kwarg "is_struct_with_optional_element" kw) in
  let* emitter := opt_text (kwarg "type_emitter" kw) in
  let* elements := each_of type_element_of (kwarg "sub_elements" kw) in
  let* symbol := optional (strict symbol_props_of) (kwarg "symbol_props" kw) in
  Ok (mkImplementationDataType i props profile optional_elements elements symbol emitter).
(** ImplementationDataType.append, element.py:1979-1986, and what ref() of the new element returns: the
    element does not get a parent, 268-279 *)
Definition append_to_type (t : ImplementationDataType) (a : arg) : result (ImplementationDataType * option ref) :=
  let* e := strict type_element_of a in
  Ok (mkImplementationDataType (ImplementationDataType_ident t) (ImplementationDataType_sw_data_def_props t) (ImplementationDataType_dynamic_array_size_profile t)
        (ImplementationDataType_is_struct_with_optional_element t) (ImplementationDataType_sub_elements t ++ [e]) (ImplementationDataType_symbol_props t)
        (ImplementationDataType_type_emitter t),
      part_ref None (id_name (ImplementationDataTypeElement_ident e)) IdentifiableSubTypes_IMPLEMENTATION_DATA_TYPE_ELEMENT).
(** ImplementationDataTypeElement.append, element.py:1923-1930, and what ref() of the new element returns,
    1932-1941 *)
Definition append_to_element (t : ImplementationDataTypeElement) (a : arg) : result (ImplementationDataTypeElement * option ref) :=
  let* e := strict type_element_of a in
  Ok (mkImplementationDataTypeElement (ImplementationDataTypeElement_ident t) (ImplementationDataTypeElement_sw_data_def_props t)
        (ImplementationDataTypeElement_array_size t) (ImplementationDataTypeElement_array_impl_policy t) (ImplementationDataTypeElement_array_size_handling t)
        (ImplementationDataTypeElement_array_size_semantics t) (ImplementationDataTypeElement_sub_elements t ++ [e]) (ImplementationDataTypeElement_is_optional t),
      part_ref None (id_name (ImplementationDataTypeElement_ident e)) IdentifiableSubTypes_IMPLEMENTATION_DATA_TYPE_ELEMENT).

(** ** Application data types *)
(** ApplicationPrimitiveDataType, element.py:2141-2160 *)
Definition new_primitive_type (name : string) (kw : keyword_args) : result ApplicationPrimitiveDataType :=
  let* _ := check_keywords type_keywords kw in
  let* (i, props) := new_type name kw in
  Ok (mkApplicationPrimitiveDataType i props).
(** ApplicationCompositeElementDataPrototype.__init__, element.py:2168-2174; DataPrototype.__init__, 2009-2021:
    the type must be a reference of the class itself *)
Definition new_composite_element (name : string) (kw : keyword_args) : result (identifiable * option SwDataDefProps * option ref) :=
  let* i := new_identifiable name kw in
  let* props := optional props_of_arg (kwarg "sw_data_def_props" kw) in
  let* type_ref := opt_ref_strict rc_ApplicationDataTypeRef (kwarg "type_ref" kw) in
  Ok (i, props, type_ref).
(** ApplicationArrayElement.__init__, element.py:2183-2198 *)
Definition new_array_element (name : string) (kw : keyword_args) : result ApplicationArrayElement :=
  let* _ := check_keywords (["max_number_of_elements"; "array_size_handling"; "array_size_semantics"; "index_data_type_ref"] ++ data_keywords) kw in
  let* (i, props, type_ref) := new_composite_element name kw in
  let* handling := optional (strict handling_of) (kwarg "array_size_handling" kw) in
  let* semantics := optional (strict semantics_of) (kwarg "array_size_semantics" kw) in
  let* count := opt_count (kwarg "max_number_of_elements" kw) in
  let* index := opt_ref rc_IndexDataTypeRef (kwarg "index_data_type_ref" kw) in
  Ok (mkApplicationArrayElement i props type_ref handling semantics count index).
(** ApplicationArrayDataType.__init__, element.py:2217-2226 *)
Definition new_array_type (name : string) (kw : keyword_args) : result ApplicationArrayDataType :=
  let* _ := check_keywords (["dynamic_array_size_profile"; "element"] ++ type_keywords) kw in
  let* (i, props) := new_type name kw in
  let* profile := opt_text (kwarg "dynamic_array_size_profile" kw) in
  let* element := optional (strict array_element_of) (kwarg "element" kw) in
  Ok (mkApplicationArrayDataType i props profile element).
(** ApplicationRecordElement.__init__, element.py:2245-2251 *)
Definition new_record_element (name : string) (kw : keyword_args) : result ApplicationRecordElement :=
  let* _ := check_keywords ("is_optional" :: data_keywords) kw in
  let* (i, props, type_ref) := new_composite_element name kw in
  let* is_optional := opt_bool (kwarg "is_optional" kw) in
  Ok (mkApplicationRecordElement i props type_ref is_optional).
(** elements, element.py:2276-2280: what is neither an element nor a list is ignored *)
Definition record_elements (a : arg) : result (list ApplicationRecordElement) :=
  match a with
  | AObj (OApplicationRecordElement e) => Ok [e]
  | AList l => mapM (strict record_element_of) l
  | _ => Ok []
  end.
(** ApplicationRecordDataType.__init__, element.py:2270-2280 *)
Definition new_record_type (name : string) (kw : keyword_args) : result ApplicationRecordDataType :=
  let* _ := check_keywords ("elements" :: type_keywords) kw in
  let* (i, props) := new_type name kw in
  let* elements := record_elements (kwarg "elements" kw) in
  Ok (mkApplicationRecordDataType i props elements).
(** ApplicationRecordDataType.append, element.py:2282-2289, and what ref() of the new element returns,
    2253-2261 *)
Definition append_to_record (t : ApplicationRecordDataType) (a : arg) : result (ApplicationRecordDataType * option ref) :=
  let* e := strict record_element_of a in
  Ok (mkApplicationRecordDataType (ApplicationRecordDataType_ident t) (ApplicationRecordDataType_sw_data_def_props t) (ApplicationRecordDataType_elements t ++ [e]),
      part_ref None (id_name (ApplicationRecordElement_ident e)) IdentifiableSubTypes_APPLICATION_RECORD_ELEMENT).
(** ApplicationRecordDataType.extend, element.py:2291-2296, of a list: the type afterwards, and how it ended *)
Fixpoint extend_record (t : ApplicationRecordDataType) (l : list arg) : ApplicationRecordDataType * result unit :=
  match l with
  | [] => (t, Ok tt)
  | a :: r => match append_to_record t a with Ok (t', _) => extend_record t' r | Err e => (t, Err e) end
  end.

(** ** Mapping sets *)
(** DataTypeMappingSet.__init__, element.py:2329-2343; append, 2345-2354 *)
Definition new_mapping_set (name : string) (kw : keyword_args) : result DataTypeMappingSet :=
  let* _ := check_keywords ("data_type_maps" :: identifiable_keywords) kw in
  let* i := new_identifiable name kw in
  let* maps := one_or_list (strict type_map_of) (kwarg "data_type_maps" kw) in
  Ok (mkDataTypeMappingSet i maps).
(** DataTypeMappingSet.append, element.py:2345-2354 *)
Definition append_map (s : DataTypeMappingSet) (a : arg) : result DataTypeMappingSet :=
  let* m := strict type_map_of a in
  Ok (mkDataTypeMappingSet (DataTypeMappingSet_ident s) (DataTypeMappingSet_data_type_maps s ++ [m])).

(** ** Units *)
(** display_name, element.py:1535-1541 *)
Definition unit_names_of_arg (a : arg) : result SingleLanguageUnitNames :=
  match a with
  | AStr s => new_unit_names_str s
  | AObj (OUnitNames n) => Ok n
  | _ => Err TypeError
  end.
(** The attribute physical_dimension_ref, element.py:1542-1548: a reference that is given, or
    PhysicalDimensionRef(value) for any value *)
Inductive dimension := DimRef (r : ref) | DimOf (value : arg).
(** The attributes of a unit, element.py:1531-1534, before anything is known about its dimension *)
Record made_unit := mkMadeUnit {
  mu_ident : identifiable;
  mu_display_name : option SingleLanguageUnitNames;
  mu_dimension : option dimension;
  mu_factor : option pynum;
  mu_offset : option pynum }.
(** physical_dimension_ref, element.py:1542-1548: for a text, the reference is made from display_name *)
Definition dimension_of (display_name : arg) (a : arg) : result dimension :=
  match a with
  | AStr _ => Ok (DimOf display_name)
  | _ => match as_ref rc_PhysicalDimensionRef a with Some r => Ok (DimRef r) | None => Err TypeError end
  end.
(** Unit.__init__, element.py:1524-1550 *)
Definition new_unit (name : string) (kw : keyword_args) : result made_unit :=
  let* _ := check_keywords (["display_name"; "factor"; "offset"; "physical_dimension_ref"] ++ identifiable_keywords) kw in
  let* i := new_identifiable name kw in
  let* display_name := optional unit_names_of_arg (kwarg "display_name" kw) in
  let* dimension := optional (dimension_of (kwarg "display_name" kw)) (kwarg "physical_dimension_ref" kw) in
  let* factor := opt_float (kwarg "factor" kw) in
  let* offset := opt_float (kwarg "offset" kw) in
  Ok (mkMadeUnit i display_name dimension factor offset).
(** The unit of MElem1.v, if the value of the reference is a str *)
Definition unit_of (u : made_unit) : option Unit :=
  match mu_dimension u with
  | None => Some (mkUnit (mu_ident u) (mu_display_name u) None (mu_factor u) (mu_offset u))
  | Some (DimRef r) => Some (mkUnit (mu_ident u) (mu_display_name u) (Some r) (mu_factor u) (mu_offset u))
  | Some (DimOf (AStr s)) =>
      Some (mkUnit (mu_ident u) (mu_display_name u) (Some (mkRef s IdentifiableSubTypes_PHYSICAL_DIMENSION)) (mu_factor u) (mu_offset u))
  | Some (DimOf _) => None
  end.
