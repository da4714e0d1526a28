(** Elements built from data properties, value specifications and accesses: attributes, writer methods, reader methods.
    Generated by tools/gen_codec.py from /repo/src/autosar/xml/{element,writer,reader}.py; the
    line numbers in the comments refer to these files. *)
From Verif Require Import Base MNames MNum MXml MEnum MRefTab MRef MCodec MElem0 MElem1 MElemA MElemB MElemC.

(** ** ImplementationDataType *)

(** Attributes of ImplementationDataType, element.py:1944-2001 *)
Record ImplementationDataType := mkImplementationDataType {
  ImplementationDataType_ident : identifiable;
  ImplementationDataType_sw_data_def_props : option SwDataDefProps;
  ImplementationDataType_dynamic_array_size_profile : option string;
  ImplementationDataType_is_struct_with_optional_element : option bool;
  ImplementationDataType_sub_elements : list ImplementationDataTypeElement;
  ImplementationDataType_symbol_props : option SymbolProps;
  ImplementationDataType_type_emitter : option string }.
(** _write_autosar_data_type, writer.py:1656-1662 *)
Definition write_autosar_data_type (v : N) (f_sw_data_def_props : option SwDataDefProps) : out :=
  cat [
    if_set f_sw_data_def_props (fun a => write_sw_data_def_props v "SW-DATA-DEF-PROPS" a) ].
(** _write_implementation_data_type_group, writer.py:1636-1654 *)
Definition write_implementation_data_type_group (v : N) (f_dynamic_array_size_profile : option string) (f_is_struct_with_optional_element : option bool) (f_sub_elements : list ImplementationDataTypeElement) (f_symbol_props : option SymbolProps) (f_type_emitter : option string) : out :=
  cat [
    if_set f_dynamic_array_size_profile (fun a => content "DYNAMIC-ARRAY-SIZE-PROFILE" (Ok a));
    if_set f_is_struct_with_optional_element (fun a => content "IS-STRUCT-WITH-OPTIONAL-ELEMENT" (Ok (format_boolean a)));
    if_some f_sub_elements (node "SUB-ELEMENTS" [] (for_each f_sub_elements (fun a => write_implementation_data_type_element v a)));
    if_set f_symbol_props (fun a => write_symbol_props v "SYMBOL-PROPS" a);
    if_set f_type_emitter (fun a => content "TYPE-EMITTER" (Ok a)) ].
(** _write_implementation_data_type, writer.py:1621-1634 *)
Definition write_implementation_data_type (v : N) (e : ImplementationDataType) : out :=
  node "IMPLEMENTATION-DATA-TYPE" [] (cat [
    write_referrable (ImplementationDataType_ident e);
    write_multilanguage_referrable (ImplementationDataType_ident e);
    write_identifiable (ImplementationDataType_ident e);
    write_autosar_data_type v (ImplementationDataType_sw_data_def_props e);
    write_implementation_data_type_group v (ImplementationDataType_dynamic_array_size_profile e) (ImplementationDataType_is_struct_with_optional_element e) (ImplementationDataType_sub_elements e) (ImplementationDataType_symbol_props e) (ImplementationDataType_type_emitter e) ]).
(** _read_autosar_data_type, reader.py:1941-1948 *)
Definition read_autosar_data_type (v : N) (k : list xml) : result (option SwDataDefProps) :=
  let* d_sw_data_def_props := child "SW-DATA-DEF-PROPS" k (read_sw_data_def_props v) in
  Ok d_sw_data_def_props.
(** _read_implementation_data_type_group, reader.py:1917-1939 *)
Definition read_implementation_data_type_group (v : N) (k : list xml) : result (option string * option bool * (list ImplementationDataTypeElement) * option SymbolProps * option string) :=
  let* d_dynamic_array_size_profile := child_text "DYNAMIC-ARRAY-SIZE-PROFILE" k in
  let* d_is_struct_with_optional_element := child "IS-STRUCT-WITH-OPTIONAL-ELEMENT" k rd_boolean in
  let* d_sub_elements := children "SUB-ELEMENTS" "IMPLEMENTATION-DATA-TYPE-ELEMENT" k (read_implementation_data_type_element v) in
  let* d_symbol_props := child "SYMBOL-PROPS" k (read_symbol_props v) in
  let* d_type_emitter := child_text "TYPE-EMITTER" k in
  Ok (d_dynamic_array_size_profile, d_is_struct_with_optional_element, d_sub_elements, d_symbol_props, d_type_emitter).
(** _read_implementation_data_type, reader.py:1901-1915 *)
Definition read_implementation_data_type (v : N) (x : xml) : result ImplementationDataType :=
  let k := x_kids x in
  let* d_ident := read_ident (x_attrs x) k in
  let* d_sw_data_def_props := read_autosar_data_type v k in
  let* (d_dynamic_array_size_profile, d_is_struct_with_optional_element, d_sub_elements, d_symbol_props, d_type_emitter) := read_implementation_data_type_group v k in
  let* ident := new_identifiable d_ident in
  Ok (mkImplementationDataType ident d_sw_data_def_props d_dynamic_array_size_profile d_is_struct_with_optional_element d_sub_elements d_symbol_props d_type_emitter).

(** ** ApplicationPrimitiveDataType *)

(** Attributes of ApplicationPrimitiveDataType, element.py:2141-2160 *)
Record ApplicationPrimitiveDataType := mkApplicationPrimitiveDataType {
  ApplicationPrimitiveDataType_ident : identifiable;
  ApplicationPrimitiveDataType_sw_data_def_props : option SwDataDefProps }.
(** _write_application_primitive_data_type, writer.py:1672-1684 *)
Definition write_application_primitive_data_type (v : N) (e : ApplicationPrimitiveDataType) : out :=
  node "APPLICATION-PRIMITIVE-DATA-TYPE" [] (cat [
    write_referrable (ApplicationPrimitiveDataType_ident e);
    write_multilanguage_referrable (ApplicationPrimitiveDataType_ident e);
    write_identifiable (ApplicationPrimitiveDataType_ident e);
    write_autosar_data_type v (ApplicationPrimitiveDataType_sw_data_def_props e) ]).
(** _read_application_primitive_data_type, reader.py:1959-1974 *)
Definition read_application_primitive_data_type (v : N) (x : xml) : result ApplicationPrimitiveDataType :=
  let k := x_kids x in
  let* d_ident := read_ident (x_attrs x) k in
  let* d_sw_data_def_props := read_autosar_data_type v k in
  let* ident := new_identifiable d_ident in
  Ok (mkApplicationPrimitiveDataType ident d_sw_data_def_props).

(** ** ApplicationArrayElement *)

(** Attributes of ApplicationArrayElement, element.py:2177-2208 *)
Record ApplicationArrayElement := mkApplicationArrayElement {
  ApplicationArrayElement_ident : identifiable;
  ApplicationArrayElement_sw_data_def_props : option SwDataDefProps;
  ApplicationArrayElement_type_ref : option ref;
  ApplicationArrayElement_array_size_handling : option ArraySizeHandling;
  ApplicationArrayElement_array_size_semantics : option ArraySizeSemantics;
  ApplicationArrayElement_max_number_of_elements : option Z;
  ApplicationArrayElement_index_data_type_ref : option ref }.
(** _write_data_prototype, writer.py:1664-1670 *)
Definition write_data_prototype (v : N) (f_sw_data_def_props : option SwDataDefProps) : out :=
  cat [
    if_set f_sw_data_def_props (fun a => write_sw_data_def_props v "SW-DATA-DEF-PROPS" a) ].
(** _write_application_composite_element_data_prototype, writer.py:1686-1695 *)
Definition write_application_composite_element_data_prototype (v : N) (f_type_ref : option ref) : out :=
  cat [
    if_set f_type_ref (fun a => write_ref "TYPE-TREF" a) ].
(** _write_application_array_element_group, writer.py:1713-1725 *)
Definition write_application_array_element_group (v : N) (f_array_size_handling : option ArraySizeHandling) (f_array_size_semantics : option ArraySizeSemantics) (f_index_data_type_ref : option ref) (f_max_number_of_elements : option Z) : out :=
  cat [
    if_set f_array_size_handling (fun a => content "ARRAY-SIZE-HANDLING" (enum_text em_ArraySizeHandling a));
    if_set f_array_size_semantics (fun a => content "ARRAY-SIZE-SEMANTICS" (enum_text em_ArraySizeSemantics a));
    if_set f_index_data_type_ref (fun a => write_ref "INDEX-DATA-TYPE-REF" a);
    if_set f_max_number_of_elements (fun a => content "MAX-NUMBER-OF-ELEMENTS" (Ok (zstr a))) ].
(** _write_application_array_element, writer.py:1697-1711 *)
Definition write_application_array_element (v : N) (e : ApplicationArrayElement) : out :=
  node "ELEMENT" [] (cat [
    write_referrable (ApplicationArrayElement_ident e);
    write_multilanguage_referrable (ApplicationArrayElement_ident e);
    write_identifiable (ApplicationArrayElement_ident e);
    write_data_prototype v (ApplicationArrayElement_sw_data_def_props e);
    write_application_composite_element_data_prototype v (ApplicationArrayElement_type_ref e);
    write_application_array_element_group v (ApplicationArrayElement_array_size_handling e) (ApplicationArrayElement_array_size_semantics e) (ApplicationArrayElement_index_data_type_ref e) (ApplicationArrayElement_max_number_of_elements e) ]).
(** _read_data_prototype, reader.py:1950-1957 *)
Definition read_data_prototype (v : N) (k : list xml) : result (option SwDataDefProps) :=
  let* d_sw_data_def_props := child "SW-DATA-DEF-PROPS" k (read_sw_data_def_props v) in
  Ok d_sw_data_def_props.
(** _read_application_composite_element_data_prototype, reader.py:1976-1985 *)
Definition read_application_composite_element_data_prototype (v : N) (k : list xml) : result (option ref) :=
  let* d_type_ref := child "TYPE-TREF" k (read_ref rc_ApplicationDataTypeRef v) in
  Ok d_type_ref.
(** _read_application_array_element_group, reader.py:2015-2031 *)
Definition read_application_array_element_group (v : N) (k : list xml) : result (option ArraySizeHandling * option ArraySizeSemantics * option ref * option Z) :=
  let* d_array_size_handling := child "ARRAY-SIZE-HANDLING" k (rd_enum em_ArraySizeHandling) in
  let* d_array_size_semantics := child "ARRAY-SIZE-SEMANTICS" k (rd_enum em_ArraySizeSemantics) in
  let* d_index_data_type_ref := child "INDEX-DATA-TYPE-REF" k (read_ref rc_IndexDataTypeRef v) in
  let* d_max_number_of_elements := child "MAX-NUMBER-OF-ELEMENTS" k rd_int in
  Ok (d_array_size_handling, d_array_size_semantics, d_index_data_type_ref, d_max_number_of_elements).
(** _read_application_array_element, reader.py:1998-2013 *)
Definition read_application_array_element (v : N) (x : xml) : result ApplicationArrayElement :=
  let k := x_kids x in
  let* d_ident := read_ident (x_attrs x) k in
  let* d_sw_data_def_props := read_data_prototype v k in
  let* d_type_ref := read_application_composite_element_data_prototype v k in
  let* (d_array_size_handling, d_array_size_semantics, d_index_data_type_ref, d_max_number_of_elements) := read_application_array_element_group v k in
  let* ident := new_identifiable d_ident in
  let* d_max_number_of_elements := opt_positive d_max_number_of_elements in
  Ok (mkApplicationArrayElement ident d_sw_data_def_props d_type_ref d_array_size_handling d_array_size_semantics d_max_number_of_elements d_index_data_type_ref).

(** ** ApplicationRecordElement *)

(** Attributes of ApplicationRecordElement, element.py:2239-2261 *)
Record ApplicationRecordElement := mkApplicationRecordElement {
  ApplicationRecordElement_ident : identifiable;
  ApplicationRecordElement_sw_data_def_props : option SwDataDefProps;
  ApplicationRecordElement_type_ref : option ref;
  ApplicationRecordElement_is_optional : option bool }.
(** _write_application_record_element_group, writer.py:1743-1749 *)
Definition write_application_record_element_group (v : N) (f_is_optional : option bool) : out :=
  cat [
    if_set f_is_optional (fun a => content "IS-OPTIONAL" (Ok (format_boolean a))) ].
(** _write_application_record_element, writer.py:1727-1741 *)
Definition write_application_record_element (v : N) (e : ApplicationRecordElement) : out :=
  node "APPLICATION-RECORD-ELEMENT" [] (cat [
    write_referrable (ApplicationRecordElement_ident e);
    write_multilanguage_referrable (ApplicationRecordElement_ident e);
    write_identifiable (ApplicationRecordElement_ident e);
    write_data_prototype v (ApplicationRecordElement_sw_data_def_props e);
    write_application_composite_element_data_prototype v (ApplicationRecordElement_type_ref e);
    write_application_record_element_group v (ApplicationRecordElement_is_optional e) ]).
(** _read_application_record_element_group, reader.py:2050-2057 *)
Definition read_application_record_element_group (v : N) (k : list xml) : result (option bool) :=
  let* d_is_optional := child "IS-OPTIONAL" k rd_boolean in
  Ok d_is_optional.
(** _read_application_record_element, reader.py:2033-2048 *)
Definition read_application_record_element (v : N) (x : xml) : result ApplicationRecordElement :=
  let k := x_kids x in
  let* d_ident := read_ident (x_attrs x) k in
  let* d_sw_data_def_props := read_data_prototype v k in
  let* d_type_ref := read_application_composite_element_data_prototype v k in
  let* d_is_optional := read_application_record_element_group v k in
  let* ident := new_identifiable d_ident in
  Ok (mkApplicationRecordElement ident d_sw_data_def_props d_type_ref d_is_optional).

(** ** ApplicationArrayDataType *)

(** Attributes of ApplicationArrayDataType, element.py:2211-2236 *)
Record ApplicationArrayDataType := mkApplicationArrayDataType {
  ApplicationArrayDataType_ident : identifiable;
  ApplicationArrayDataType_sw_data_def_props : option SwDataDefProps;
  ApplicationArrayDataType_dynamic_array_size_profile : option string;
  ApplicationArrayDataType_element : option ApplicationArrayElement }.
(** _write_application_array_data_type_group, writer.py:1766-1774 *)
Definition write_application_array_data_type_group (v : N) (f_dynamic_array_size_profile : option string) (f_element : option ApplicationArrayElement) : out :=
  cat [
    if_set f_dynamic_array_size_profile (fun a => content "DYNAMIC-ARRAY-SIZE-PROFILE" (Ok a));
    if_set f_element (fun a => write_application_array_element v a) ].
(** _write_application_array_data_type, writer.py:1751-1764 *)
Definition write_application_array_data_type (v : N) (e : ApplicationArrayDataType) : out :=
  node "APPLICATION-ARRAY-DATA-TYPE" [] (cat [
    write_referrable (ApplicationArrayDataType_ident e);
    write_multilanguage_referrable (ApplicationArrayDataType_ident e);
    write_identifiable (ApplicationArrayDataType_ident e);
    write_autosar_data_type v (ApplicationArrayDataType_sw_data_def_props e);
    write_application_array_data_type_group v (ApplicationArrayDataType_dynamic_array_size_profile e) (ApplicationArrayDataType_element e) ]).
(** _read_application_array_data_type_group, reader.py:2077-2086 *)
Definition read_application_array_data_type_group (v : N) (k : list xml) : result (option string * option ApplicationArrayElement) :=
  let* d_dynamic_array_size_profile := child_text "DYNAMIC-ARRAY-SIZE-PROFILE" k in
  let* d_element := child "ELEMENT" k (read_application_array_element v) in
  Ok (d_dynamic_array_size_profile, d_element).
(** _read_application_array_data_type, reader.py:2059-2075 *)
Definition read_application_array_data_type (v : N) (x : xml) : result ApplicationArrayDataType :=
  let k := x_kids x in
  let* d_ident := read_ident (x_attrs x) k in
  let* d_sw_data_def_props := read_autosar_data_type v k in
  let* (d_dynamic_array_size_profile, d_element) := read_application_array_data_type_group v k in
  let* ident := new_identifiable d_ident in
  Ok (mkApplicationArrayDataType ident d_sw_data_def_props d_dynamic_array_size_profile d_element).

(** ** ApplicationRecordDataType *)

(** Attributes of ApplicationRecordDataType, element.py:2264-2306 *)
Record ApplicationRecordDataType := mkApplicationRecordDataType {
  ApplicationRecordDataType_ident : identifiable;
  ApplicationRecordDataType_sw_data_def_props : option SwDataDefProps;
  ApplicationRecordDataType_elements : list ApplicationRecordElement }.
(** _write_application_record_data_type_group, writer.py:1791-1800 *)
Definition write_application_record_data_type_group (v : N) (f_elements : list ApplicationRecordElement) : out :=
  cat [
    if_some f_elements (node "ELEMENTS" [] (for_each f_elements (fun a => write_application_record_element v a))) ].
(** _write_application_record_data_type, writer.py:1776-1789 *)
Definition write_application_record_data_type (v : N) (e : ApplicationRecordDataType) : out :=
  node "APPLICATION-RECORD-DATA-TYPE" [] (cat [
    write_referrable (ApplicationRecordDataType_ident e);
    write_multilanguage_referrable (ApplicationRecordDataType_ident e);
    write_identifiable (ApplicationRecordDataType_ident e);
    write_autosar_data_type v (ApplicationRecordDataType_sw_data_def_props e);
    write_application_record_data_type_group v (ApplicationRecordDataType_elements e) ]).
(** _read_application_record_data_type_group, reader.py:2106-2115 *)
Definition read_application_record_data_type_group (v : N) (k : list xml) : result ((list ApplicationRecordElement)) :=
  let* d_elements := children "ELEMENTS" "APPLICATION-RECORD-ELEMENT" k (read_application_record_element v) in
  Ok d_elements.
(** _read_application_record_data_type, reader.py:2088-2104 *)
Definition read_application_record_data_type (v : N) (x : xml) : result ApplicationRecordDataType :=
  let k := x_kids x in
  let* d_ident := read_ident (x_attrs x) k in
  let* d_sw_data_def_props := read_autosar_data_type v k in
  let* d_elements := read_application_record_data_type_group v k in
  let* ident := new_identifiable d_ident in
  Ok (mkApplicationRecordDataType ident d_sw_data_def_props d_elements).

(** ** VariableDataPrototype *)

(** Attributes of VariableDataPrototype, element.py:2039-2069 *)
Record VariableDataPrototype := mkVariableDataPrototype {
  VariableDataPrototype_ident : identifiable;
  VariableDataPrototype_sw_data_def_props : option SwDataDefProps;
  VariableDataPrototype_type_ref : option ref;
  VariableDataPrototype_init_value : option ValueSpecificationElement }.
(** _write_autosar_data_prototype, writer.py:1861-1867 *)
Definition write_autosar_data_prototype (v : N) (f_type_ref : option ref) : out :=
  cat [
    if_set f_type_ref (fun a => write_ref "TYPE-TREF" a) ].
(** _write_variable_data_prototype_group, writer.py:1887-1895 *)
Definition write_variable_data_prototype_group (v : N) (f_init_value : option ValueSpecificationElement) : out :=
  cat [
    if_set f_init_value (fun a => node "INIT-VALUE" [] (write_value_specification_element v a)) ].
(** _write_variable_data_prototype, writer.py:1869-1885 *)
Definition write_variable_data_prototype (v : N) (tag : string) (e : VariableDataPrototype) : out :=
  node tag (identifiable_attributes (VariableDataPrototype_ident e)) (cat [
    write_referrable (VariableDataPrototype_ident e);
    write_multilanguage_referrable (VariableDataPrototype_ident e);
    write_identifiable (VariableDataPrototype_ident e);
    write_data_prototype v (VariableDataPrototype_sw_data_def_props e);
    write_autosar_data_prototype v (VariableDataPrototype_type_ref e);
    write_variable_data_prototype_group v (VariableDataPrototype_init_value e) ]).
(** _read_autosar_data_prototype, reader.py:1987-1996 *)
Definition read_autosar_data_prototype (v : N) (k : list xml) : result (option ref) :=
  let* d_type_ref := child "TYPE-TREF" k (read_ref rc_AutosarDataTypeRef v) in
  Ok d_type_ref.
(** _read_variable_data_prototype_group, reader.py:2226-2238 *)
Definition read_variable_data_prototype_group (v : N) (k : list xml) : result (option ValueSpecificationElement) :=
  let* d_init_value := child_inner_try "INIT-VALUE" k (read_value_specification_element v) in
  Ok d_init_value.
(** _read_variable_data_prototype, reader.py:2210-2224 *)
Definition read_variable_data_prototype (v : N) (x : xml) : result VariableDataPrototype :=
  let k := x_kids x in
  let* d_ident := read_ident (x_attrs x) k in
  let* d_sw_data_def_props := read_data_prototype v k in
  let* d_type_ref := read_autosar_data_prototype v k in
  let* d_init_value := read_variable_data_prototype_group v k in
  let* ident := new_identifiable d_ident in
  Ok (mkVariableDataPrototype ident d_sw_data_def_props d_type_ref d_init_value).

(** ** ParameterDataPrototype *)

(** Attributes of ParameterDataPrototype, element.py:2072-2093 *)
Record ParameterDataPrototype := mkParameterDataPrototype {
  ParameterDataPrototype_ident : identifiable;
  ParameterDataPrototype_sw_data_def_props : option SwDataDefProps;
  ParameterDataPrototype_type_ref : option ref;
  ParameterDataPrototype_init_value : option ValueSpecificationElement }.
(** _write_parameter_data_prototype, writer.py:1897-1913 *)
Definition write_parameter_data_prototype (v : N) (tag : string) (e : ParameterDataPrototype) : out :=
  node tag (identifiable_attributes (ParameterDataPrototype_ident e)) (cat [
    write_referrable (ParameterDataPrototype_ident e);
    write_multilanguage_referrable (ParameterDataPrototype_ident e);
    write_identifiable (ParameterDataPrototype_ident e);
    write_data_prototype v (ParameterDataPrototype_sw_data_def_props e);
    write_autosar_data_prototype v (ParameterDataPrototype_type_ref e);
    write_variable_data_prototype_group v (ParameterDataPrototype_init_value e) ]).
(** _read_parameter_data_prototype_group, reader.py:2196-2208 *)
Definition read_parameter_data_prototype_group (v : N) (k : list xml) : result (option ValueSpecificationElement) :=
  let* d_init_value := child_inner_try "INIT-VALUE" k (read_value_specification_element v) in
  Ok d_init_value.
(** _read_parameter_data_prototype, reader.py:2180-2194 *)
Definition read_parameter_data_prototype (v : N) (x : xml) : result ParameterDataPrototype :=
  let k := x_kids x in
  let* d_ident := read_ident (x_attrs x) k in
  let* d_sw_data_def_props := read_data_prototype v k in
  let* d_type_ref := read_autosar_data_prototype v k in
  let* d_init_value := read_parameter_data_prototype_group v k in
  let* ident := new_identifiable d_ident in
  Ok (mkParameterDataPrototype ident d_sw_data_def_props d_type_ref d_init_value).

(** ** ArgumentDataPrototype *)

(** Attributes of ArgumentDataPrototype, element.py:2096-2121 *)
Record ArgumentDataPrototype := mkArgumentDataPrototype {
  ArgumentDataPrototype_ident : identifiable;
  ArgumentDataPrototype_sw_data_def_props : option SwDataDefProps;
  ArgumentDataPrototype_type_ref : option ref;
  ArgumentDataPrototype_direction : option ArgumentDirection;
  ArgumentDataPrototype_server_arg_impl_policy : option ServerArgImplPolicy }.
(** _write_argument_data_prototype_group, writer.py:1943-1951 *)
Definition write_argument_data_prototype_group (v : N) (f_direction : option ArgumentDirection) (f_server_arg_impl_policy : option ServerArgImplPolicy) : out :=
  cat [
    if_set f_direction (fun a => content "DIRECTION" (enum_text em_ArgumentDirection a));
    if_set f_server_arg_impl_policy (fun a => content "SERVER-ARGUMENT-IMPL-POLICY" (enum_text em_ServerArgImplPolicy a)) ].
(** _write_argument_data_prototype, writer.py:1925-1941 *)
Definition write_argument_data_prototype (v : N) (e : ArgumentDataPrototype) : out :=
  node "ARGUMENT-DATA-PROTOTYPE" (identifiable_attributes (ArgumentDataPrototype_ident e)) (cat [
    write_referrable (ArgumentDataPrototype_ident e);
    write_multilanguage_referrable (ArgumentDataPrototype_ident e);
    write_identifiable (ArgumentDataPrototype_ident e);
    write_data_prototype v (ArgumentDataPrototype_sw_data_def_props e);
    write_autosar_data_prototype v (ArgumentDataPrototype_type_ref e);
    write_argument_data_prototype_group v (ArgumentDataPrototype_direction e) (ArgumentDataPrototype_server_arg_impl_policy e) ]).
(** _read_argument_data_prototype_group, reader.py:2256-2267 *)
Definition read_argument_data_prototype_group (v : N) (k : list xml) : result (option ArgumentDirection * option ServerArgImplPolicy) :=
  let* d_direction := child "DIRECTION" k (rd_enum em_ArgumentDirection) in
  let* d_server_arg_impl_policy := child "SERVER-ARGUMENT-IMPL-POLICY" k (rd_enum em_ServerArgImplPolicy) in
  Ok (d_direction, d_server_arg_impl_policy).
(** _read_argument_data_prototype, reader.py:2240-2254 *)
Definition read_argument_data_prototype (v : N) (x : xml) : result ArgumentDataPrototype :=
  let k := x_kids x in
  let* d_ident := read_ident (x_attrs x) k in
  let* d_sw_data_def_props := read_data_prototype v k in
  let* d_type_ref := read_autosar_data_prototype v k in
  let* (d_direction, d_server_arg_impl_policy) := read_argument_data_prototype_group v k in
  let* ident := new_identifiable d_ident in
  Ok (mkArgumentDataPrototype ident d_sw_data_def_props d_type_ref d_direction d_server_arg_impl_policy).

(** ** ConstantSpecification *)

(** Attributes of ConstantSpecification, element.py:2770-2805 *)
Record ConstantSpecification := mkConstantSpecification {
  ConstantSpecification_ident : identifiable;
  ConstantSpecification_value : option ValueSpecificationElement }.
(** _write_constant_specification_group, writer.py:2648-2655 *)
Definition write_constant_specification_group (v : N) (f_value : option ValueSpecificationElement) : out :=
  cat [
    if_set f_value (fun a => node "VALUE-SPEC" [] (write_value_specification_element v a)) ].
(** _write_constant_specification, writer.py:2634-2646 *)
Definition write_constant_specification (v : N) (e : ConstantSpecification) : out :=
  node "CONSTANT-SPECIFICATION" (identifiable_attributes (ConstantSpecification_ident e)) (cat [
    write_referrable (ConstantSpecification_ident e);
    write_multilanguage_referrable (ConstantSpecification_ident e);
    write_identifiable (ConstantSpecification_ident e);
    write_constant_specification_group v (ConstantSpecification_value e) ]).
(** _read_constant_specification_group, reader.py:3032-3040 *)
Definition read_constant_specification_group (v : N) (k : list xml) : result (option ValueSpecificationElement) :=
  let* d_value := child_inner "VALUE-SPEC" k (read_value_specification_element v) in
  Ok d_value.
(** _read_constant_specification, reader.py:3017-3030 *)
Definition read_constant_specification (v : N) (x : xml) : result ConstantSpecification :=
  let k := x_kids x in
  let* d_ident := read_ident (x_attrs x) k in
  let* d_value := read_constant_specification_group v k in
  let* ident := new_identifiable d_ident in
  Ok (mkConstantSpecification ident d_value).

(** ** NvDataInterface *)

(** Attributes of NvDataInterface, element.py:3469-3523 *)
Record NvDataInterface := mkNvDataInterface {
  NvDataInterface_ident : identifiable;
  NvDataInterface_is_service : option bool;
  NvDataInterface_service_kind : option ServiceKind;
  NvDataInterface_data_elements : list VariableDataPrototype }.
(** _write_nv_data_interface_group, writer.py:2923-2932 *)
Definition write_nv_data_interface_group (v : N) (f_data_elements : list VariableDataPrototype) : out :=
  cat [
    if_some f_data_elements (node "NV-DATAS" [] (for_each f_data_elements (fun a => write_variable_data_prototype v "VARIABLE-DATA-PROTOTYPE" a))) ].
(** _write_nv_data_interface, writer.py:2909-2921 *)
Definition write_nv_data_interface (v : N) (e : NvDataInterface) : out :=
  node "NV-DATA-INTERFACE" [] (cat [
    write_referrable (NvDataInterface_ident e);
    write_multilanguage_referrable (NvDataInterface_ident e);
    write_identifiable (NvDataInterface_ident e);
    write_port_interface v (NvDataInterface_is_service e) (NvDataInterface_service_kind e);
    write_nv_data_interface_group v (NvDataInterface_data_elements e) ]).
(** _read_nv_data_interface_group, reader.py:3357-3369 *)
Definition read_nv_data_interface_group (v : N) (k : list xml) : result ((list VariableDataPrototype)) :=
  let* d_data_elements := children "NV-DATAS" "VARIABLE-DATA-PROTOTYPE" k (read_variable_data_prototype v) in
  Ok d_data_elements.
(** _read_nv_data_interface, reader.py:3342-3355 *)
Definition read_nv_data_interface (v : N) (x : xml) : result NvDataInterface :=
  let k := x_kids x in
  let* d_ident := read_ident (x_attrs x) k in
  let* d_is_service := read_port_interface v k in
  let* d_data_elements := read_nv_data_interface_group v k in
  let* ident := new_identifiable d_ident in
  Ok (mkNvDataInterface ident d_is_service None d_data_elements).

(** ** ParameterInterface *)

(** Attributes of ParameterInterface, element.py:3526-3580 *)
Record ParameterInterface := mkParameterInterface {
  ParameterInterface_ident : identifiable;
  ParameterInterface_is_service : option bool;
  ParameterInterface_service_kind : option ServiceKind;
  ParameterInterface_parameters : list ParameterDataPrototype }.
(** _write_parameter_interface_group, writer.py:2948-2957 *)
Definition write_parameter_interface_group (v : N) (f_parameters : list ParameterDataPrototype) : out :=
  cat [
    if_some f_parameters (node "PARAMETERS" [] (for_each f_parameters (fun a => write_parameter_data_prototype v "PARAMETER-DATA-PROTOTYPE" a))) ].
(** _write_parameter_interface, writer.py:2934-2946 *)
Definition write_parameter_interface (v : N) (e : ParameterInterface) : out :=
  node "PARAMETER-INTERFACE" [] (cat [
    write_referrable (ParameterInterface_ident e);
    write_multilanguage_referrable (ParameterInterface_ident e);
    write_identifiable (ParameterInterface_ident e);
    write_port_interface v (ParameterInterface_is_service e) (ParameterInterface_service_kind e);
    write_parameter_interface_group v (ParameterInterface_parameters e) ]).
(** _read_parameter_interface_group, reader.py:3386-3398 *)
Definition read_parameter_interface_group (v : N) (k : list xml) : result ((list ParameterDataPrototype)) :=
  let* d_parameters := children "PARAMETERS" "PARAMETER-DATA-PROTOTYPE" k (read_parameter_data_prototype v) in
  Ok d_parameters.
(** _read_parameter_interface, reader.py:3371-3384 *)
Definition read_parameter_interface (v : N) (x : xml) : result ParameterInterface :=
  let k := x_kids x in
  let* d_ident := read_ident (x_attrs x) k in
  let* d_is_service := read_port_interface v k in
  let* d_parameters := read_parameter_interface_group v k in
  let* ident := new_identifiable d_ident in
  Ok (mkParameterInterface ident d_is_service None d_parameters).

(** ** SenderReceiverInterface *)

(** Attributes of SenderReceiverInterface, element.py:3370-3466 *)
Record SenderReceiverInterface := mkSenderReceiverInterface {
  SenderReceiverInterface_ident : identifiable;
  SenderReceiverInterface_is_service : option bool;
  SenderReceiverInterface_service_kind : option ServiceKind;
  SenderReceiverInterface_data_elements : list VariableDataPrototype;
  SenderReceiverInterface_invalidation_policies : list InvalidationPolicy }.
(** _write_sender_receiver_interface_group, writer.py:2973-2987 *)
Definition write_sender_receiver_interface_group (v : N) (f_data_elements : list VariableDataPrototype) (f_invalidation_policies : list InvalidationPolicy) : out :=
  cat [
    if_some f_data_elements (node "DATA-ELEMENTS" [] (for_each f_data_elements (fun a => write_variable_data_prototype v "VARIABLE-DATA-PROTOTYPE" a)));
    if_some f_invalidation_policies (node "INVALIDATION-POLICYS" [] (for_each f_invalidation_policies (fun a => write_invalidation_policy v a))) ].
(** _write_sender_receiver_interface, writer.py:2959-2971 *)
Definition write_sender_receiver_interface (v : N) (e : SenderReceiverInterface) : out :=
  node "SENDER-RECEIVER-INTERFACE" [] (cat [
    write_referrable (SenderReceiverInterface_ident e);
    write_multilanguage_referrable (SenderReceiverInterface_ident e);
    write_identifiable (SenderReceiverInterface_ident e);
    write_port_interface v (SenderReceiverInterface_is_service e) (SenderReceiverInterface_service_kind e);
    write_sender_receiver_interface_group v (SenderReceiverInterface_data_elements e) (SenderReceiverInterface_invalidation_policies e) ]).
(** _read_sender_receiver_interface_group, reader.py:3415-3436 *)
Definition read_sender_receiver_interface_group (v : N) (k : list xml) : result ((list VariableDataPrototype) * (list InvalidationPolicy)) :=
  let* d_data_elements := children "DATA-ELEMENTS" "VARIABLE-DATA-PROTOTYPE" k (read_variable_data_prototype v) in
  let* d_invalidation_policies := children "INVALIDATION-POLICYS" "INVALIDATION-POLICY" k (read_invalidation_policy v) in
  Ok (d_data_elements, d_invalidation_policies).
(** _read_sender_receiver_interface, reader.py:3400-3413 *)
Definition read_sender_receiver_interface (v : N) (x : xml) : result SenderReceiverInterface :=
  let k := x_kids x in
  let* d_ident := read_ident (x_attrs x) k in
  let* d_is_service := read_port_interface v k in
  let* (d_data_elements, d_invalidation_policies) := read_sender_receiver_interface_group v k in
  let* ident := new_identifiable d_ident in
  Ok (mkSenderReceiverInterface ident d_is_service None d_data_elements d_invalidation_policies).

(** ** ClientServerOperation *)

(** Attributes of ClientServerOperation, element.py:3611-3748 *)
Record ClientServerOperation := mkClientServerOperation {
  ClientServerOperation_ident : identifiable;
  ClientServerOperation_arguments : list ArgumentDataPrototype;
  ClientServerOperation_diag_arg_integrity : option bool;
  ClientServerOperation_fire_and_forget : option bool;
  ClientServerOperation_possible_error_refs : list ref }.
(** _write_client_server_operation_group, writer.py:3046-3063 *)
Definition write_client_server_operation_group (v : N) (f_arguments : list ArgumentDataPrototype) (f_diag_arg_integrity : option bool) (f_fire_and_forget : option bool) (f_possible_error_refs : list ref) : out :=
  cat [
    if_some f_arguments (node "ARGUMENTS" [] (for_each f_arguments (fun a => write_argument_data_prototype v a)));
    if_set f_diag_arg_integrity (fun a => content "DIAG-ARG-INTEGRITY" (Ok (format_boolean a)));
    if_set f_fire_and_forget (fun a => content "FIRE-AND-FORGET" (Ok (format_boolean a)));
    if_some f_possible_error_refs (node "POSSIBLE-ERROR-REFS" [] (for_each f_possible_error_refs (fun a => write_ref "POSSIBLE-ERROR-REF" a))) ].
(** _write_client_server_operation, writer.py:3033-3044 *)
Definition write_client_server_operation (v : N) (e : ClientServerOperation) : out :=
  node "CLIENT-SERVER-OPERATION" [] (cat [
    write_referrable (ClientServerOperation_ident e);
    write_multilanguage_referrable (ClientServerOperation_ident e);
    write_identifiable (ClientServerOperation_ident e);
    write_client_server_operation_group v (ClientServerOperation_arguments e) (ClientServerOperation_diag_arg_integrity e) (ClientServerOperation_fire_and_forget e) (ClientServerOperation_possible_error_refs e) ]).
(** _read_client_server_operation_group, reader.py:3489-3517 *)
Definition read_client_server_operation_group (v : N) (k : list xml) : result ((list ArgumentDataPrototype) * option bool * option bool * (list ref)) :=
  let* d_arguments := children "ARGUMENTS" "ARGUMENT-DATA-PROTOTYPE" k (read_argument_data_prototype v) in
  let* d_diag_arg_integrity := child "DIAG-ARG-INTEGRITY" k rd_boolean in
  let* d_fire_and_forget := child "FIRE-AND-FORGET" k rd_boolean in
  let* d_possible_error_refs := children "POSSIBLE-ERROR-REFS" "POSSIBLE-ERROR-REF" k (read_ref rc_ApplicationErrorRef v) in
  Ok (d_arguments, d_diag_arg_integrity, d_fire_and_forget, d_possible_error_refs).
(** _read_client_server_operation, reader.py:3475-3487 *)
Definition read_client_server_operation (v : N) (x : xml) : result ClientServerOperation :=
  let k := x_kids x in
  let* d_ident := read_ident (x_attrs x) k in
  let* (d_arguments, d_diag_arg_integrity, d_fire_and_forget, d_possible_error_refs) := read_client_server_operation_group v k in
  let* ident := new_identifiable d_ident in
  Ok (mkClientServerOperation ident d_arguments d_diag_arg_integrity d_fire_and_forget d_possible_error_refs).

(** ** ClientServerInterface *)

(** Attributes of ClientServerInterface, element.py:3751-3846 *)
Record ClientServerInterface := mkClientServerInterface {
  ClientServerInterface_ident : identifiable;
  ClientServerInterface_is_service : option bool;
  ClientServerInterface_service_kind : option ServiceKind;
  ClientServerInterface_operations : list ClientServerOperation;
  ClientServerInterface_possible_errors : list ApplicationError }.
(** _write_client_server_interface_group, writer.py:3079-3092 *)
Definition write_client_server_interface_group (v : N) (f_operations : list ClientServerOperation) (f_possible_errors : list ApplicationError) : out :=
  cat [
    if_some f_operations (node "OPERATIONS" [] (for_each f_operations (fun a => write_client_server_operation v a)));
    if_some f_possible_errors (node "POSSIBLE-ERRORS" [] (for_each f_possible_errors (fun a => write_application_error v a))) ].
(** _write_client_server_interface, writer.py:3065-3077 *)
Definition write_client_server_interface (v : N) (e : ClientServerInterface) : out :=
  node "CLIENT-SERVER-INTERFACE" [] (cat [
    write_referrable (ClientServerInterface_ident e);
    write_multilanguage_referrable (ClientServerInterface_ident e);
    write_identifiable (ClientServerInterface_ident e);
    write_port_interface v (ClientServerInterface_is_service e) (ClientServerInterface_service_kind e);
    write_client_server_interface_group v (ClientServerInterface_operations e) (ClientServerInterface_possible_errors e) ]).
(** _read_client_server_interface_group, reader.py:3534-3553 *)
Definition read_client_server_interface_group (v : N) (k : list xml) : result ((list ClientServerOperation) * (list ApplicationError)) :=
  let* d_operations := children "OPERATIONS" "CLIENT-SERVER-OPERATION" k (read_client_server_operation v) in
  let* d_possible_errors := children "POSSIBLE-ERRORS" "APPLICATION-ERROR" k (read_application_error v) in
  Ok (d_operations, d_possible_errors).
(** _read_client_server_interface, reader.py:3519-3532 *)
Definition read_client_server_interface (v : N) (x : xml) : result ClientServerInterface :=
  let k := x_kids x in
  let* d_ident := read_ident (x_attrs x) k in
  let* d_is_service := read_port_interface v k in
  let* (d_operations, d_possible_errors) := read_client_server_interface_group v k in
  let* ident := new_identifiable d_ident in
  Ok (mkClientServerInterface ident d_is_service None d_operations d_possible_errors).

(** ** QueuedSenderComSpec *)

(** Attributes of QueuedSenderComSpec, element.py:4216-4222 *)
Record QueuedSenderComSpec := mkQueuedSenderComSpec {
  QueuedSenderComSpec_data_element_ref : option ref;
  QueuedSenderComSpec_handle_out_of_range : option HandleOutOfRange;
  QueuedSenderComSpec_network_representation : option SwDataDefProps;
  QueuedSenderComSpec_transmission_acknowledge : option TransmissionAcknowledgementRequest;
  QueuedSenderComSpec_tranmsission_props : option TransmissionComSpecProps;
  QueuedSenderComSpec_uses_end_to_end_protection : option bool }.
(** QueuedSenderComSpec.is_empty, xml/base.py:17-29 *)
Definition QueuedSenderComSpec_is_empty (e : QueuedSenderComSpec) : bool := unset (QueuedSenderComSpec_data_element_ref e) && unset (QueuedSenderComSpec_handle_out_of_range e) && unset (QueuedSenderComSpec_network_representation e) && unset (QueuedSenderComSpec_transmission_acknowledge e) && unset (QueuedSenderComSpec_tranmsission_props e) && unset (QueuedSenderComSpec_uses_end_to_end_protection e).
(** _write_sender_com_spec_group, writer.py:3260-3276 *)
Definition write_sender_com_spec_group (v : N) (f_data_element_ref : option ref) (f_handle_out_of_range : option HandleOutOfRange) (f_network_representation : option SwDataDefProps) (f_transmission_acknowledge : option TransmissionAcknowledgementRequest) (f_tranmsission_props : option TransmissionComSpecProps) (f_uses_end_to_end_protection : option bool) : out :=
  cat [
    if_set f_data_element_ref (fun a => write_ref "DATA-ELEMENT-REF" a);
    if_set f_handle_out_of_range (fun a => content "HANDLE-OUT-OF-RANGE" (enum_text em_HandleOutOfRange a));
    if_set f_network_representation (fun a => write_sw_data_def_props v "NETWORK-REPRESENTATION" a);
    if_set f_transmission_acknowledge (fun a => write_transmission_acknowledgement_request v a);
    if_set f_tranmsission_props (fun a => write_tranmsission_com_spec_props v a);
    if_set f_uses_end_to_end_protection (fun a => content "USES-END-TO-END-PROTECTION" (Ok (format_boolean a))) ].
(** _write_queued_sender_com_spec, writer.py:3278-3290 *)
Definition write_queued_sender_com_spec (v : N) (e : QueuedSenderComSpec) : out :=
  if QueuedSenderComSpec_is_empty e then empty "QUEUED-SENDER-COM-SPEC" else
  node "QUEUED-SENDER-COM-SPEC" [] (cat [
    write_sender_com_spec_group v (QueuedSenderComSpec_data_element_ref e) (QueuedSenderComSpec_handle_out_of_range e) (QueuedSenderComSpec_network_representation e) (QueuedSenderComSpec_transmission_acknowledge e) (QueuedSenderComSpec_tranmsission_props e) (QueuedSenderComSpec_uses_end_to_end_protection e) ]).
(** _read_sender_com_spec_group, reader.py:3741-3765 *)
Definition read_sender_com_spec_group (v : N) (k : list xml) : result (option ref * option HandleOutOfRange * option SwDataDefProps * option TransmissionAcknowledgementRequest * option TransmissionComSpecProps * option bool) :=
  let* d_data_element_ref := child "DATA-ELEMENT-REF" k (read_ref rc_AutosarDataPrototypeRef v) in
  let* d_handle_out_of_range := child "HANDLE-OUT-OF-RANGE" k (rd_enum em_HandleOutOfRange) in
  let* d_network_representation := child "NETWORK-REPRESENTATION" k (read_sw_data_def_props v) in
  let* d_transmission_acknowledge := child "TRANSMISSION-ACKNOWLEDGE" k (read_transmission_acknowledgement_request v) in
  let* d_tranmsission_props := child "TRANSMISSION-PROPS" k (read_tranmsission_com_spec_props v) in
  let* d_uses_end_to_end_protection := child "USES-END-TO-END-PROTECTION" k rd_boolean in
  Ok (d_data_element_ref, d_handle_out_of_range, d_network_representation, d_transmission_acknowledge, d_tranmsission_props, d_uses_end_to_end_protection).
(** _read_queued_sender_com_spec, reader.py:3767-3778 *)
Definition read_queued_sender_com_spec (v : N) (x : xml) : result QueuedSenderComSpec :=
  let k := x_kids x in
  let* (d_data_element_ref, d_handle_out_of_range, d_network_representation, d_transmission_acknowledge, d_tranmsission_props, d_uses_end_to_end_protection) := read_sender_com_spec_group v k in
  Ok (mkQueuedSenderComSpec d_data_element_ref d_handle_out_of_range d_network_representation d_transmission_acknowledge d_tranmsission_props d_uses_end_to_end_protection).

(** ** NonqueuedSenderComSpec *)

(** Attributes of NonqueuedSenderComSpec, element.py:4225-4239 *)
Record NonqueuedSenderComSpec := mkNonqueuedSenderComSpec {
  NonqueuedSenderComSpec_data_element_ref : option ref;
  NonqueuedSenderComSpec_handle_out_of_range : option HandleOutOfRange;
  NonqueuedSenderComSpec_network_representation : option SwDataDefProps;
  NonqueuedSenderComSpec_transmission_acknowledge : option TransmissionAcknowledgementRequest;
  NonqueuedSenderComSpec_tranmsission_props : option TransmissionComSpecProps;
  NonqueuedSenderComSpec_uses_end_to_end_protection : option bool;
  NonqueuedSenderComSpec_data_filter : option DataFilter;
  NonqueuedSenderComSpec_init_value : option ValueSpecificationElement }.
(** NonqueuedSenderComSpec.is_empty, xml/base.py:17-29 *)
Definition NonqueuedSenderComSpec_is_empty (e : NonqueuedSenderComSpec) : bool := unset (NonqueuedSenderComSpec_data_element_ref e) && unset (NonqueuedSenderComSpec_handle_out_of_range e) && unset (NonqueuedSenderComSpec_network_representation e) && unset (NonqueuedSenderComSpec_transmission_acknowledge e) && unset (NonqueuedSenderComSpec_tranmsission_props e) && unset (NonqueuedSenderComSpec_uses_end_to_end_protection e) && unset (NonqueuedSenderComSpec_data_filter e) && unset (NonqueuedSenderComSpec_init_value e).
(** _write_non_queued_sender_com_spec_group, writer.py:3307-3316 *)
Definition write_non_queued_sender_com_spec_group (v : N) (f_data_filter : option DataFilter) (f_init_value : option ValueSpecificationElement) : out :=
  cat [
    if_set f_data_filter (fun a => write_data_filter v "DATA-FILTER" a);
    if_set f_init_value (fun a => node "INIT-VALUE" [] (write_value_specification_element v a)) ].
(** _write_non_queued_sender_com_spec, writer.py:3292-3305 *)
Definition write_non_queued_sender_com_spec (v : N) (e : NonqueuedSenderComSpec) : out :=
  if NonqueuedSenderComSpec_is_empty e then empty "NONQUEUED-SENDER-COM-SPEC" else
  node "NONQUEUED-SENDER-COM-SPEC" [] (cat [
    write_sender_com_spec_group v (NonqueuedSenderComSpec_data_element_ref e) (NonqueuedSenderComSpec_handle_out_of_range e) (NonqueuedSenderComSpec_network_representation e) (NonqueuedSenderComSpec_transmission_acknowledge e) (NonqueuedSenderComSpec_tranmsission_props e) (NonqueuedSenderComSpec_uses_end_to_end_protection e);
    write_non_queued_sender_com_spec_group v (NonqueuedSenderComSpec_data_filter e) (NonqueuedSenderComSpec_init_value e) ]).
(** _read_nonqueued_sender_com_spec_group, reader.py:3794-3808 *)
Definition read_nonqueued_sender_com_spec_group (v : N) (k : list xml) : result (option DataFilter * option ValueSpecificationElement) :=
  let* d_data_filter := child "DATA-FILTER" k (read_data_filter v) in
  let* d_init_value := child_inner_try "INIT-VALUE" k (read_value_specification_element v) in
  Ok (d_data_filter, d_init_value).
(** _read_nonqueued_sender_com_spec, reader.py:3780-3792 *)
Definition read_nonqueued_sender_com_spec (v : N) (x : xml) : result NonqueuedSenderComSpec :=
  let k := x_kids x in
  let* (d_data_element_ref, d_handle_out_of_range, d_network_representation, d_transmission_acknowledge, d_tranmsission_props, d_uses_end_to_end_protection) := read_sender_com_spec_group v k in
  let* (d_data_filter, d_init_value) := read_nonqueued_sender_com_spec_group v k in
  Ok (mkNonqueuedSenderComSpec d_data_element_ref d_handle_out_of_range d_network_representation d_transmission_acknowledge d_tranmsission_props d_uses_end_to_end_protection d_data_filter d_init_value).

(** ** NvProvideComSpec *)

(** Attributes of NvProvideComSpec, element.py:4242-4259 *)
Record NvProvideComSpec := mkNvProvideComSpec {
  NvProvideComSpec_ram_block_init_value : option ValueSpecificationElement;
  NvProvideComSpec_rom_block_init_value : option ValueSpecificationElement;
  NvProvideComSpec_variable_ref : option ref }.
(** NvProvideComSpec.is_empty, xml/base.py:17-29 *)
Definition NvProvideComSpec_is_empty (e : NvProvideComSpec) : bool := unset (NvProvideComSpec_ram_block_init_value e) && unset (NvProvideComSpec_rom_block_init_value e) && unset (NvProvideComSpec_variable_ref e).
(** _write_nv_provide_com_spec, writer.py:3318-3339 *)
Definition write_nv_provide_com_spec (v : N) (e : NvProvideComSpec) : out :=
  if NvProvideComSpec_is_empty e then empty "NV-PROVIDE-COM-SPEC" else
  node "NV-PROVIDE-COM-SPEC" [] (cat [
    if_set (NvProvideComSpec_ram_block_init_value e) (fun a => node "RAM-BLOCK-INIT-VALUE" [] (write_value_specification_element v a));
    if_set (NvProvideComSpec_rom_block_init_value e) (fun a => node "ROM-BLOCK-INIT-VALUE" [] (write_value_specification_element v a));
    if_set (NvProvideComSpec_variable_ref e) (fun a => write_ref "VARIABLE-REF" a) ]).
(** _read_nv_provider_com_spec_group, reader.py:3823-3845 *)
Definition read_nv_provider_com_spec_group (v : N) (k : list xml) : result (option ValueSpecificationElement * option ValueSpecificationElement * option ref) :=
  let* d_ram_block_init_value := child_inner_try "RAM-BLOCK-INIT-VALUE" k (read_value_specification_element v) in
  let* d_rom_block_init_value := child_inner_try "ROM-BLOCK-INIT-VALUE" k (read_value_specification_element v) in
  let* d_variable_ref := child "VARIABLE-REF" k (read_ref rc_VariableDataPrototypeRef v) in
  Ok (d_ram_block_init_value, d_rom_block_init_value, d_variable_ref).
(** _read_nv_provider_com_spec, reader.py:3810-3821 *)
Definition read_nv_provider_com_spec (v : N) (x : xml) : result NvProvideComSpec :=
  let k := x_kids x in
  let* (d_ram_block_init_value, d_rom_block_init_value, d_variable_ref) := read_nv_provider_com_spec_group v k in
  Ok (mkNvProvideComSpec d_ram_block_init_value d_rom_block_init_value d_variable_ref).

(** ** ParameterProvideComSpec *)

(** Attributes of ParameterProvideComSpec, element.py:4262-4276 *)
Record ParameterProvideComSpec := mkParameterProvideComSpec {
  ParameterProvideComSpec_init_value : option ValueSpecificationElement;
  ParameterProvideComSpec_parameter_ref : option ref }.
(** ParameterProvideComSpec.is_empty, xml/base.py:17-29 *)
Definition ParameterProvideComSpec_is_empty (e : ParameterProvideComSpec) : bool := unset (ParameterProvideComSpec_init_value e) && unset (ParameterProvideComSpec_parameter_ref e).
(** _write_parameter_provide_com_spec, writer.py:3341-3358 *)
Definition write_parameter_provide_com_spec (v : N) (e : ParameterProvideComSpec) : out :=
  if ParameterProvideComSpec_is_empty e then empty "PARAMETER-PROVIDE-COM-SPEC" else
  node "PARAMETER-PROVIDE-COM-SPEC" [] (cat [
    if_set (ParameterProvideComSpec_init_value e) (fun a => node "INIT-VALUE" [] (write_value_specification_element v a));
    if_set (ParameterProvideComSpec_parameter_ref e) (fun a => write_ref "PARAMETER-REF" a) ]).
(** _read_parameter_provide_com_spec, reader.py:3847-3868 *)
Definition read_parameter_provide_com_spec (v : N) (x : xml) : result ParameterProvideComSpec :=
  let k := x_kids x in
  let* d_init_value := child_inner_try "INIT-VALUE" k (read_value_specification_element v) in
  let* d_parameter_ref := child "PARAMETER-REF" k (read_ref rc_ParameterDataPrototypeRef v) in
  Ok (mkParameterProvideComSpec d_init_value d_parameter_ref).

(** ** NvRequireComSpec *)

(** Attributes of NvRequireComSpec, element.py:4582-4596 *)
Record NvRequireComSpec := mkNvRequireComSpec {
  NvRequireComSpec_init_value : option ValueSpecificationElement;
  NvRequireComSpec_variable_ref : option ref }.
(** NvRequireComSpec.is_empty, xml/base.py:17-29 *)
Definition NvRequireComSpec_is_empty (e : NvRequireComSpec) : bool := unset (NvRequireComSpec_init_value e) && unset (NvRequireComSpec_variable_ref e).
(** _write_nv_require_com_spec, writer.py:3485-3502 *)
Definition write_nv_require_com_spec (v : N) (e : NvRequireComSpec) : out :=
  if NvRequireComSpec_is_empty e then empty "NV-REQUIRE-COM-SPEC" else
  node "NV-REQUIRE-COM-SPEC" [] (cat [
    if_set (NvRequireComSpec_init_value e) (fun a => node "INIT-VALUE" [] (write_value_specification_element v a));
    if_set (NvRequireComSpec_variable_ref e) (fun a => write_ref "VARIABLE-REF" a) ]).
(** _read_nv_require_com_spec, reader.py:4030-4049 *)
Definition read_nv_require_com_spec (v : N) (x : xml) : result NvRequireComSpec :=
  let k := x_kids x in
  let* d_init_value := child_inner_try "INIT-VALUE" k (read_value_specification_element v) in
  let* d_variable_ref := child "VARIABLE-REF" k (read_ref rc_VariableDataPrototypeRef v) in
  Ok (mkNvRequireComSpec d_init_value d_variable_ref).

(** ** ParameterRequireComSpec *)

(** Attributes of ParameterRequireComSpec, element.py:4599-4613 *)
Record ParameterRequireComSpec := mkParameterRequireComSpec {
  ParameterRequireComSpec_init_value : option ValueSpecificationElement;
  ParameterRequireComSpec_parameter_ref : option ref }.
(** ParameterRequireComSpec.is_empty, xml/base.py:17-29 *)
Definition ParameterRequireComSpec_is_empty (e : ParameterRequireComSpec) : bool := unset (ParameterRequireComSpec_init_value e) && unset (ParameterRequireComSpec_parameter_ref e).
(** _write_parameter_require_com_spec, writer.py:3504-3521 *)
Definition write_parameter_require_com_spec (v : N) (e : ParameterRequireComSpec) : out :=
  if ParameterRequireComSpec_is_empty e then empty "PARAMETER-REQUIRE-COM-SPEC" else
  node "PARAMETER-REQUIRE-COM-SPEC" [] (cat [
    if_set (ParameterRequireComSpec_init_value e) (fun a => node "INIT-VALUE" [] (write_value_specification_element v a));
    if_set (ParameterRequireComSpec_parameter_ref e) (fun a => write_ref "PARAMETER-REF" a) ]).
(** _read_parameter_require_com_spec, reader.py:4051-4072 *)
Definition read_parameter_require_com_spec (v : N) (x : xml) : result ParameterRequireComSpec :=
  let k := x_kids x in
  let* d_init_value := child_inner_try "INIT-VALUE" k (read_value_specification_element v) in
  let* d_parameter_ref := child "PARAMETER-REF" k (read_ref rc_ParameterDataPrototypeRef v) in
  Ok (mkParameterRequireComSpec d_init_value d_parameter_ref).

(** ** AutosarVariableRef *)

(** Attributes of AutosarVariableRef, element.py:5816-5844 *)
Record AutosarVariableRef := mkAutosarVariableRef {
  AutosarVariableRef_ar_variable_in_impl_datatype : option ArVariableInImplementationDataInstanceRef;
  AutosarVariableRef_ar_variable_iref : option VariableInAtomicSWCTypeInstanceRef;
  AutosarVariableRef_local_variable_ref : option ref }.
(** AutosarVariableRef.is_empty, xml/base.py:17-29 *)
Definition AutosarVariableRef_is_empty (e : AutosarVariableRef) : bool := unset (AutosarVariableRef_ar_variable_in_impl_datatype e) && unset (AutosarVariableRef_ar_variable_iref e) && unset (AutosarVariableRef_local_variable_ref e).
(** _write_autosar_variable_ref, writer.py:4082-4104 *)
Definition write_autosar_variable_ref (v : N) (tag : string) (e : AutosarVariableRef) : out :=
  if AutosarVariableRef_is_empty e then empty tag else
  node tag [] (cat [
    if_set (AutosarVariableRef_ar_variable_in_impl_datatype e) (fun a => write_variable_in_impl_data_instance_ref v "AUTOSAR-VARIABLE-IN-IMPL-DATATYPE" a);
    if_set (AutosarVariableRef_ar_variable_iref e) (fun a => write_variable_in_atomic_swc_type_instance_ref v a);
    if_set (AutosarVariableRef_local_variable_ref e) (fun a => write_ref "LOCAL-VARIABLE-REF" a) ]).
(** _read_autosar_variable_ref_group, reader.py:4730-4743 *)
Definition read_autosar_variable_ref_group (v : N) (k : list xml) : result (option ArVariableInImplementationDataInstanceRef * option VariableInAtomicSWCTypeInstanceRef * option ref) :=
  let* d_ar_variable_in_impl_datatype := child "AUTOSAR-VARIABLE-IN-IMPL-DATATYPE" k (read_variable_in_impl_data_instance_ref v) in
  let* d_ar_variable_iref := child "AUTOSAR-VARIABLE-IREF" k (read_variable_in_atomic_swc_type_instance_ref v) in
  let* d_local_variable_ref := child "LOCAL-VARIABLE-REF" k (read_ref rc_VariableDataPrototypeRef v) in
  Ok (d_ar_variable_in_impl_datatype, d_ar_variable_iref, d_local_variable_ref).
(** _read_autosar_variable_ref, reader.py:4717-4728 *)
Definition read_autosar_variable_ref (v : N) (x : xml) : result AutosarVariableRef :=
  let k := x_kids x in
  let* (d_ar_variable_in_impl_datatype, d_ar_variable_iref, d_local_variable_ref) := read_autosar_variable_ref_group v k in
  Ok (mkAutosarVariableRef d_ar_variable_in_impl_datatype d_ar_variable_iref d_local_variable_ref).

(** ** VariableAccess *)

(** Attributes of VariableAccess, element.py:5847-5908 *)
Record VariableAccess := mkVariableAccess {
  VariableAccess_ident : identifiable;
  VariableAccess_accessed_variable : option AutosarVariableRef;
  VariableAccess_scope : option VariableAccessScope }.
(** _write_variable_access, writer.py:4106-4120 *)
Definition write_variable_access (v : N) (tag : string) (e : VariableAccess) : out :=
  node tag [] (cat [
    write_referrable (VariableAccess_ident e);
    write_multilanguage_referrable (VariableAccess_ident e);
    write_identifiable (VariableAccess_ident e);
    if_set (VariableAccess_accessed_variable e) (fun a => write_autosar_variable_ref v "ACCESSED-VARIABLE" a);
    if_set (VariableAccess_scope e) (fun a => content "SCOPE" (enum_text em_VariableAccessScope a)) ]).
(** _read_variable_access_group, reader.py:4706-4715 *)
Definition read_variable_access_group (v : N) (k : list xml) : result (option AutosarVariableRef * option VariableAccessScope) :=
  let* d_accessed_variable := child "ACCESSED-VARIABLE" k (read_autosar_variable_ref v) in
  let* d_scope := child "SCOPE" k (rd_enum em_VariableAccessScope) in
  Ok (d_accessed_variable, d_scope).
(** _read_variable_access, reader.py:4692-4704 *)
Definition read_variable_access (v : N) (x : xml) : result VariableAccess :=
  let k := x_kids x in
  let* d_ident := read_ident (x_attrs x) k in
  let* (d_accessed_variable, d_scope) := read_variable_access_group v k in
  let* ident := new_identifiable d_ident in
  Ok (mkVariableAccess ident d_accessed_variable d_scope).

(** ** ParameterAccess *)

(** Attributes of ParameterAccess, element.py:6357-6383 *)
Record ParameterAccess := mkParameterAccess {
  ParameterAccess_ident : identifiable;
  ParameterAccess_return_value_provision : option RteApiReturnValueProvision;
  ParameterAccess_accessed_parameter : option AutosarParameterRef;
  ParameterAccess_sw_data_def_props : option SwDataDefProps }.
(** _write_parameter_access_group, writer.py:4387-4394 *)
Definition write_parameter_access_group (v : N) (f_accessed_parameter : option AutosarParameterRef) (f_sw_data_def_props : option SwDataDefProps) : out :=
  cat [
    if_set f_accessed_parameter (fun a => write_autosar_parameter_ref v "ACCESSED-PARAMETER" a);
    if_set f_sw_data_def_props (fun a => write_sw_data_def_props v "SW-DATA-DEF-PROPS" a) ].
(** _write_parameter_access, writer.py:4373-4385 *)
Definition write_parameter_access (v : N) (e : ParameterAccess) : out :=
  node "PARAMETER-ACCESS" [] (cat [
    write_referrable (ParameterAccess_ident e);
    write_multilanguage_referrable (ParameterAccess_ident e);
    write_identifiable (ParameterAccess_ident e);
    write_abstract_access_point v (ParameterAccess_return_value_provision e);
    write_parameter_access_group v (ParameterAccess_accessed_parameter e) (ParameterAccess_sw_data_def_props e) ]).
(** _read_parameter_access_group, reader.py:5031-5041 *)
Definition read_parameter_access_group (v : N) (k : list xml) : result (option AutosarParameterRef * option SwDataDefProps) :=
  let* d_accessed_parameter := child "ACCESSED-PARAMETER" k (read_autosar_parameter_ref v) in
  let* d_sw_data_def_props := child "SW-DATA-DEF-PROPS" k (read_sw_data_def_props v) in
  Ok (d_accessed_parameter, d_sw_data_def_props).
(** _read_parameter_access, reader.py:5016-5029 *)
Definition read_parameter_access (v : N) (x : xml) : result ParameterAccess :=
  let k := x_kids x in
  let* d_ident := read_ident (x_attrs x) k in
  let* d_return_value_provision := read_abstract_access_point v k in
  let* (d_accessed_parameter, d_sw_data_def_props) := read_parameter_access_group v k in
  let* ident := new_identifiable d_ident in
  Ok (mkParameterAccess ident d_return_value_provision d_accessed_parameter d_sw_data_def_props).

(** ** PortDefinedArgumentValue *)

(** Attributes of PortDefinedArgumentValue, element.py:7676-7692 *)
Record PortDefinedArgumentValue := mkPortDefinedArgumentValue {
  PortDefinedArgumentValue_value : option ValueSpecificationElement;
  PortDefinedArgumentValue_value_type : option ref }.
(** PortDefinedArgumentValue.is_empty, xml/base.py:17-29 *)
Definition PortDefinedArgumentValue_is_empty (e : PortDefinedArgumentValue) : bool := unset (PortDefinedArgumentValue_value e) && unset (PortDefinedArgumentValue_value_type e).
(** _write_port_defined_argument_value, writer.py:4832-4849 *)
Definition write_port_defined_argument_value (v : N) (e : PortDefinedArgumentValue) : out :=
  if PortDefinedArgumentValue_is_empty e then empty "PORT-DEFINED-ARGUMENT-VALUE" else
  node "PORT-DEFINED-ARGUMENT-VALUE" [] (cat [
    if_set (PortDefinedArgumentValue_value e) (fun a => node "VALUE" [] (write_value_specification_element v a));
    if_set (PortDefinedArgumentValue_value_type e) (fun a => write_ref "VALUE-TYPE-TREF" a) ]).
(** _read_port_defined_argument_value, reader.py:5582-5603 *)
Definition read_port_defined_argument_value (v : N) (x : xml) : result PortDefinedArgumentValue :=
  let k := x_kids x in
  let* d_value := child_inner_try "VALUE" k (read_value_specification_element v) in
  let* d_value_type := child "VALUE-TYPE-TREF" k (read_ref rc_ImplementationDataTypeRef v) in
  Ok (mkPortDefinedArgumentValue d_value d_value_type).

(** ** PortApiOption *)

(** Attributes of PortApiOption, element.py:7720-7788 *)
Record PortApiOption := mkPortApiOption {
  PortApiOption_enable_take_address : option bool;
  PortApiOption_error_handling : option DataTransformationErrorHandling;
  PortApiOption_indirect_api : option bool;
  PortApiOption_port_arg_values : list PortDefinedArgumentValue;
  PortApiOption_port : option ref;
  PortApiOption_supported_features : list CommunicationBufferLocking;
  PortApiOption_transformer_status_forwarding : option DataTransformationStatusForwarding }.
(** PortApiOption.is_empty, xml/base.py:17-29 *)
Definition PortApiOption_is_empty (e : PortApiOption) : bool := unset (PortApiOption_enable_take_address e) && unset (PortApiOption_error_handling e) && unset (PortApiOption_indirect_api e) && no_items (PortApiOption_port_arg_values e) && unset (PortApiOption_port e) && no_items (PortApiOption_supported_features e) && unset (PortApiOption_transformer_status_forwarding e).
(** _write_port_api_option_group, writer.py:4880-4907 *)
Definition write_port_api_option_group (v : N) (f_enable_take_address : option bool) (f_error_handling : option DataTransformationErrorHandling) (f_indirect_api : option bool) (f_port_arg_values : list PortDefinedArgumentValue) (f_port : option ref) (f_supported_features : list CommunicationBufferLocking) (f_transformer_status_forwarding : option DataTransformationStatusForwarding) : out :=
  cat [
    if_set f_enable_take_address (fun a => content "ENABLE-TAKE-ADDRESS" (Ok (format_boolean a)));
    if_set f_error_handling (fun a => content "ERROR-HANDLING" (enum_text em_DataTransformationErrorHandling a));
    if_set f_indirect_api (fun a => content "INDIRECT-API" (Ok (format_boolean a)));
    if_some f_port_arg_values (node "PORT-ARG-VALUES" [] (for_each f_port_arg_values (fun a => write_port_defined_argument_value v a)));
    if_set f_port (fun a => write_ref "PORT-REF" a);
    if_some f_supported_features (node "SUPPORTED-FEATURES" [] (for_each f_supported_features (fun a => write_communication_buffer_locking v a)));
    if_set f_transformer_status_forwarding (fun a => content "TRANSFORMER-STATUS-FORWARDING" (enum_text em_DataTransformationStatusForwarding a)) ].
(** _write_port_api_option, writer.py:4866-4878 *)
Definition write_port_api_option (v : N) (e : PortApiOption) : out :=
  if PortApiOption_is_empty e then empty "PORT-API-OPTION" else
  node "PORT-API-OPTION" [] (cat [
    write_port_api_option_group v (PortApiOption_enable_take_address e) (PortApiOption_error_handling e) (PortApiOption_indirect_api e) (PortApiOption_port_arg_values e) (PortApiOption_port e) (PortApiOption_supported_features e) (PortApiOption_transformer_status_forwarding e) ]).
(** _read_port_api_option_group, reader.py:5633-5668 *)
Definition read_port_api_option_group (v : N) (k : list xml) : result (option bool * option DataTransformationErrorHandling * option bool * (list PortDefinedArgumentValue) * option ref * (list CommunicationBufferLocking) * option DataTransformationStatusForwarding) :=
  let* d_enable_take_address := child "ENABLE-TAKE-ADDRESS" k rd_boolean in
  let* d_error_handling := child "ERROR-HANDLING" k (rd_enum em_DataTransformationErrorHandling) in
  let* d_indirect_api := child "INDIRECT-API" k rd_boolean in
  let* d_port_arg_values := children "PORT-ARG-VALUES" "PORT-DEFINED-ARGUMENT-VALUE" k (read_port_defined_argument_value v) in
  let* d_port := child "PORT-REF" k (read_ref rc_PortPrototypeRef v) in
  let* d_supported_features := children "SUPPORTED-FEATURES" "COMMUNICATION-BUFFER-LOCKING" k (read_communication_buffer_locking v) in
  let* d_transformer_status_forwarding := child "TRANSFORMER-STATUS-FORWARDING" k (rd_enum em_DataTransformationStatusForwarding) in
  Ok (d_enable_take_address, d_error_handling, d_indirect_api, d_port_arg_values, d_port, d_supported_features, d_transformer_status_forwarding).
(** _read_port_api_option, reader.py:5620-5631 *)
Definition read_port_api_option (v : N) (x : xml) : result PortApiOption :=
  let k := x_kids x in
  let* (d_enable_take_address, d_error_handling, d_indirect_api, d_port_arg_values, d_port, d_supported_features, d_transformer_status_forwarding) := read_port_api_option_group v k in
  Ok (mkPortApiOption d_enable_take_address d_error_handling d_indirect_api d_port_arg_values d_port d_supported_features d_transformer_status_forwarding).

