(** Elements built from texts, numbers, enumerations and references: attributes, writer methods, reader methods.
    Generated by tools/gen_codec.py from /repo/src/autosar/xml/{element,writer,reader}.py; the
    line numbers in the comments refer to these files. *)
From Verif Require Import Base MNames MNum MXml MEnum MRefTab MRef MCodec MElem0.

(** ** Unit *)

(** Attributes of Unit, element.py:1518-1558 *)
Record Unit := mkUnit {
  Unit_ident : identifiable;
  Unit_display_name : option SingleLanguageUnitNames;
  Unit_physical_dimension_ref : option ref;
  Unit_factor : option pynum;
  Unit_offset : option pynum }.
(** _write_unit_group, writer.py:1247-1255 *)
Definition write_unit_group (v : N) (f_display_name : option SingleLanguageUnitNames) (f_factor : option pynum) (f_offset : option pynum) (f_physical_dimension_ref : option ref) : out :=
  cat [
    if_set f_display_name (fun a => write_unit_names "DISPLAY-NAME" a);
    if_set f_factor (fun a => content "FACTOR-SI-TO-UNIT" (format_float a));
    if_set f_offset (fun a => content "OFFSET-SI-TO-UNIT" (format_float a));
    if_set f_physical_dimension_ref (fun a => write_ref "PHYSICAL-DIMENSION-REF" a) ].
(** _write_unit, writer.py:1231-1245 *)
Definition write_unit (v : N) (e : Unit) : out :=
  node "UNIT" (identifiable_attributes (Unit_ident e)) (cat [
    write_referrable (Unit_ident e);
    write_multilanguage_referrable (Unit_ident e);
    write_identifiable (Unit_ident e);
    write_unit_group v (Unit_display_name e) (Unit_factor e) (Unit_offset e) (Unit_physical_dimension_ref e) ]).
(** _read_unit_group, reader.py:1469-1485 *)
Definition read_unit_group (v : N) (k : list xml) : result (option SingleLanguageUnitNames * option pynum * option pynum * option ref) :=
  let* d_display_name := child "DISPLAY-NAME" k read_unit_names in
  let* d_factor := child "FACTOR-SI-TO-UNIT" k rd_float in
  let* d_offset := child "OFFSET-SI-TO-UNIT" k rd_float in
  let* d_physical_dimension_ref := child "PHYSICAL-DIMENSION-REF" k (read_ref rc_PhysicalDimensionRef v) in
  Ok (d_display_name, d_factor, d_offset, d_physical_dimension_ref).
(** _read_unit, reader.py:1454-1467 *)
Definition read_unit (v : N) (x : xml) : result Unit :=
  let k := x_kids x in
  let* d_ident := read_ident (x_attrs x) k in
  let* (d_display_name, d_factor, d_offset, d_physical_dimension_ref) := read_unit_group v k in
  let* ident := new_identifiable d_ident in
  Ok (mkUnit ident d_display_name d_physical_dimension_ref d_factor d_offset).

(** ** DataFilter *)

(** Attributes of DataFilter, element.py:346-375 *)
Record DataFilter := mkDataFilter {
  DataFilter_data_filter_type : option DataFilterType;
  DataFilter_min_val : option Z;
  DataFilter_max_val : option Z;
  DataFilter_mask : option Z;
  DataFilter_offset : option Z;
  DataFilter_period : option Z;
  DataFilter_x : option Z }.
(** DataFilter.is_empty, xml/base.py:17-29 *)
Definition DataFilter_is_empty (e : DataFilter) : bool := unset (DataFilter_data_filter_type e) && unset (DataFilter_min_val e) && unset (DataFilter_max_val e) && unset (DataFilter_mask e) && unset (DataFilter_offset e) && unset (DataFilter_period e) && unset (DataFilter_x e).
(** _write_data_filter_group, writer.py:1272-1289 *)
Definition write_data_filter_group (v : N) (f_data_filter_type : option DataFilterType) (f_mask : option Z) (f_max_val : option Z) (f_min_val : option Z) (f_offset : option Z) (f_period : option Z) (f_x : option Z) : out :=
  cat [
    if_set f_data_filter_type (fun a => content "DATA-FILTER-TYPE" (enum_text em_DataFilterType a));
    if_set f_mask (fun a => content "MASK" (Ok (zstr a)));
    if_set f_max_val (fun a => content "MAX" (Ok (zstr a)));
    if_set f_min_val (fun a => content "MIN" (Ok (zstr a)));
    if_set f_offset (fun a => content "OFFSET" (Ok (zstr a)));
    if_set f_period (fun a => content "PERIOD" (Ok (zstr a)));
    if_set f_x (fun a => content "X" (Ok (zstr a))) ].
(** _write_data_filter, writer.py:1259-1270 *)
Definition write_data_filter (v : N) (tag : string) (e : DataFilter) : out :=
  if DataFilter_is_empty e then empty tag else
  node tag [] (cat [
    write_data_filter_group v (DataFilter_data_filter_type e) (DataFilter_mask e) (DataFilter_max_val e) (DataFilter_min_val e) (DataFilter_offset e) (DataFilter_period e) (DataFilter_x e) ]).
(** _read_data_filter, reader.py:1489-1518 *)
Definition read_data_filter (v : N) (x : xml) : result DataFilter :=
  let k := x_kids x in
  let* d_data_filter_type := child "DATA-FILTER-TYPE" k (rd_enum em_DataFilterType) in
  let* d_mask := child "MASK" k rd_integer in
  let* d_max_val := child "MAX" k rd_integer in
  let* d_min_val := child "MIN" k rd_integer in
  let* d_offset := child "OFFSET" k rd_positive in
  let* d_period := child "PERIOD" k rd_positive in
  let* d_x := child "X" k rd_integer in
  Ok (mkDataFilter d_data_filter_type d_min_val d_max_val d_mask d_offset d_period d_x).

(** ** AutosarEngineeringObject *)

(** Attributes of AutosarEngineeringObject, element.py:393-399 *)
Record AutosarEngineeringObject := mkAutosarEngineeringObject {
  AutosarEngineeringObject_label : option string;
  AutosarEngineeringObject_category : option string }.
(** AutosarEngineeringObject.is_empty, xml/base.py:17-29 *)
Definition AutosarEngineeringObject_is_empty (e : AutosarEngineeringObject) : bool := unset (AutosarEngineeringObject_label e) && unset (AutosarEngineeringObject_category e).
(** _write_engineering_object, writer.py:1291-1298 *)
Definition write_engineering_object (v : N) (f_label : option string) (f_category : option string) : out :=
  cat [
    if_set f_label (fun a => content "SHORT-LABEL" (Ok a));
    if_set f_category (fun a => content "CATEGORY" (Ok a)) ].
(** _write_autosar_engineering_object, writer.py:1300-1311 *)
Definition write_autosar_engineering_object (v : N) (tag : string) (e : AutosarEngineeringObject) : out :=
  if AutosarEngineeringObject_is_empty e then empty tag else
  node tag [] (cat [
    write_engineering_object v (AutosarEngineeringObject_label e) (AutosarEngineeringObject_category e) ]).
(** _read_engineering_object, reader.py:1520-1529 *)
Definition read_engineering_object (v : N) (k : list xml) : result (option string * option string) :=
  let* d_label := child_text "SHORT-LABEL" k in
  let* d_category := child_text "CATEGORY" k in
  Ok (d_label, d_category).
(** _read_autosar_engineering_object, reader.py:1531-1540 *)
Definition read_autosar_engineering_object (v : N) (x : xml) : result AutosarEngineeringObject :=
  let k := x_kids x in
  let* (d_label, d_category) := read_engineering_object v k in
  Ok (mkAutosarEngineeringObject d_label d_category).

(** ** Code *)

(** Attributes of Code, element.py:402-429 *)
Record Code := mkCode {
  Code_ident : identifiable;
  Code_artifact_descriptors : list AutosarEngineeringObject }.
(** _write_code, writer.py:1313-1330 *)
Definition write_code (v : N) (e : Code) : out :=
  node "CODE" (identifiable_attributes (Code_ident e)) (cat [
    write_referrable (Code_ident e);
    write_multilanguage_referrable (Code_ident e);
    write_identifiable (Code_ident e);
    if_some (Code_artifact_descriptors e) (node "ARTIFACT-DESCRIPTORS" [] (for_each (Code_artifact_descriptors e) (fun a => write_autosar_engineering_object v "AUTOSAR-ENGINEERING-OBJECT" a))) ]).
(** _read_code, reader.py:1542-1560 *)
Definition read_code (v : N) (x : xml) : result Code :=
  let k := x_kids x in
  let* d_ident := read_ident (x_attrs x) k in
  let* d_artifact_descriptors := children "ARTIFACT-DESCRIPTORS" "AUTOSAR-ENGINEERING-OBJECT" k (read_autosar_engineering_object v) in
  let* ident := new_identifiable d_ident in
  Ok (mkCode ident d_artifact_descriptors).

(** ** SwBaseType *)

(** Attributes of SwBaseType, element.py:1580-1609 *)
Record SwBaseType := mkSwBaseType {
  SwBaseType_ident : identifiable;
  SwBaseType_size : option Z;
  SwBaseType_max_size : option Z;
  SwBaseType_encoding : option string;
  SwBaseType_alignment : option Z;
  SwBaseType_byte_order : option ByteOrder;
  SwBaseType_native_declaration : option string }.
(** _write_base_type, writer.py:1404-1421 *)
Definition write_base_type (v : N) (f_size : option Z) (f_max_size : option Z) (f_encoding : option string) (f_alignment : option Z) (f_byte_order : option ByteOrder) (f_native_declaration : option string) : out :=
  cat [
    if_set f_size (fun a => content "BASE-TYPE-SIZE" (Ok (zstr a)));
    if_set f_max_size (fun a => content "MAX-BASE-TYPE-SIZE" (Ok (zstr a)));
    if_set f_encoding (fun a => content "BASE-TYPE-ENCODING" (Ok a));
    if_set f_alignment (fun a => content "MEM-ALIGNMENT" (Ok (zstr a)));
    if_set f_byte_order (fun a => content "BYTE-ORDER" (enum_text em_ByteOrder a));
    if_set f_native_declaration (fun a => content "NATIVE-DECLARATION" (Ok a)) ].
(** _write_sw_base_type, writer.py:1388-1402 *)
Definition write_sw_base_type (v : N) (e : SwBaseType) : out :=
  node "SW-BASE-TYPE" (identifiable_attributes (SwBaseType_ident e)) (cat [
    write_referrable (SwBaseType_ident e);
    write_multilanguage_referrable (SwBaseType_ident e);
    write_identifiable (SwBaseType_ident e);
    write_base_type v (SwBaseType_size e) (SwBaseType_max_size e) (SwBaseType_encoding e) (SwBaseType_alignment e) (SwBaseType_byte_order e) (SwBaseType_native_declaration e) ]).
(** _read_base_type, reader.py:1629-1653 *)
Definition read_base_type (v : N) (k : list xml) : result (option Z * option Z * option string * option Z * option ByteOrder * option string) :=
  let* d_size := child "BASE-TYPE-SIZE" k rd_positive in
  let* d_max_size := child "MAX-BASE-TYPE-SIZE" k rd_positive in
  let* d_encoding := child "BASE-TYPE-ENCODING" k rd_str in
  let* d_alignment := child "MEM-ALIGNMENT" k rd_positive in
  let* d_byte_order := child "BYTE-ORDER" k (rd_enum em_ByteOrder) in
  let* d_native_declaration := child "NATIVE-DECLARATION" k rd_str in
  Ok (d_size, d_max_size, d_encoding, d_alignment, d_byte_order, d_native_declaration).
(** _read_sw_base_type, reader.py:1614-1627 *)
Definition read_sw_base_type (v : N) (x : xml) : result SwBaseType :=
  let k := x_kids x in
  let* d_ident := read_ident (x_attrs x) k in
  let* (d_size, d_max_size, d_encoding, d_alignment, d_byte_order, d_native_declaration) := read_base_type v k in
  let* ident := new_identifiable d_ident in
  Ok (mkSwBaseType ident d_size d_max_size d_encoding d_alignment d_byte_order d_native_declaration).

(** ** SwBitRepresentation *)

(** Attributes of SwBitRepresentation, element.py:1612-1625 *)
Record SwBitRepresentation := mkSwBitRepresentation {
  SwBitRepresentation_position : option Z;
  SwBitRepresentation_num_bits : option Z }.
(** SwBitRepresentation.is_empty, xml/base.py:17-29 *)
Definition SwBitRepresentation_is_empty (e : SwBitRepresentation) : bool := unset (SwBitRepresentation_position e) && unset (SwBitRepresentation_num_bits e).
(** _write_sw_bit_represenation, writer.py:1507-1522 *)
Definition write_sw_bit_represenation (v : N) (e : SwBitRepresentation) : out :=
  if SwBitRepresentation_is_empty e then empty "SW-BIT-REPRESENTATION" else
  node "SW-BIT-REPRESENTATION" [] (cat [
    if_set (SwBitRepresentation_position e) (fun a => content "BIT-POSITION" (Ok (zstr a)));
    if_set (SwBitRepresentation_num_bits e) (fun a => content "NUMBER-OF-BITS" (Ok (zstr a))) ]).
(** _read_sw_bit_representation, reader.py:1655-1669 *)
Definition read_sw_bit_representation (v : N) (x : xml) : result SwBitRepresentation :=
  let k := x_kids x in
  let* d_position := child "BIT-POSITION" k rd_int in
  let* d_num_bits := child "NUMBER-OF-BITS" k rd_int in
  Ok (mkSwBitRepresentation d_position d_num_bits).

(** ** SwTextProps *)

(** Attributes of SwTextProps, element.py:1628-1647 *)
Record SwTextProps := mkSwTextProps {
  SwTextProps_array_size_semantics : option ArraySizeSemantics;
  SwTextProps_max_text_size : option Z;
  SwTextProps_base_type_ref : option ref;
  SwTextProps_fill_char : option Z }.
(** SwTextProps.is_empty, xml/base.py:17-29 *)
Definition SwTextProps_is_empty (e : SwTextProps) : bool := unset (SwTextProps_array_size_semantics e) && unset (SwTextProps_max_text_size e) && unset (SwTextProps_base_type_ref e) && unset (SwTextProps_fill_char e).
(** _write_sw_text_props, writer.py:1524-1543 *)
Definition write_sw_text_props (v : N) (e : SwTextProps) : out :=
  if SwTextProps_is_empty e then empty "SW-TEXT-PROPS" else
  node "SW-TEXT-PROPS" [] (cat [
    if_set (SwTextProps_array_size_semantics e) (fun a => content "ARRAY-SIZE-SEMANTICS" (enum_text em_ArraySizeSemantics a));
    if_set (SwTextProps_max_text_size e) (fun a => content "SW-MAX-TEXT-SIZE" (Ok (zstr a)));
    if_set (SwTextProps_base_type_ref e) (fun a => write_ref "BASE-TYPE-REF" a);
    if_set (SwTextProps_fill_char e) (fun a => content "SW-FILL-CHARACTER" (Ok (zstr a))) ]).
(** _read_sw_text_props, reader.py:1785-1806 *)
Definition read_sw_text_props (v : N) (x : xml) : result SwTextProps :=
  let k := x_kids x in
  let* d_array_size_semantics := child "ARRAY-SIZE-SEMANTICS" k (rd_enum em_ArraySizeSemantics) in
  let* d_max_text_size := child "SW-MAX-TEXT-SIZE" k rd_integer in
  let* d_base_type_ref := child "BASE-TYPE-REF" k (read_ref rc_SwBaseTypeRef v) in
  let* d_fill_char := child "SW-FILL-CHARACTER" k rd_integer in
  Ok (mkSwTextProps d_array_size_semantics d_max_text_size d_base_type_ref d_fill_char).

(** ** SymbolProps *)

(** Attributes of SymbolProps, element.py:1874-1880 *)
Record SymbolProps := mkSymbolProps {
  SymbolProps_name : string;
  SymbolProps_symbol : option string }.
(** _write_implementation_props, writer.py:1576-1582 *)
Definition write_implementation_props (v : N) (f_symbol : option string) : out :=
  cat [
    if_set f_symbol (fun a => content "SYMBOL" (Ok a)) ].
(** _write_symbol_props, writer.py:1564-1574 *)
Definition write_symbol_props (v : N) (tag : string) (e : SymbolProps) : out :=
  node tag [] (cat [
    content "SHORT-NAME" (Ok (SymbolProps_name e));
    write_implementation_props v (SymbolProps_symbol e) ]).
(** _read_implementation_props, reader.py:1841-1850 *)
Definition read_implementation_props (v : N) (k : list xml) : result (option string) :=
  let* d_symbol := child_text "SYMBOL" k in
  Ok d_symbol.
(** _read_symbol_props, reader.py:1828-1839 *)
Definition read_symbol_props (v : N) (x : xml) : result SymbolProps :=
  let k := x_kids x in
  let* d_name := read_referrable k in
  let* d_symbol := read_implementation_props v k in
  let* name := new_referrable d_name in
  Ok (mkSymbolProps name d_symbol).

(** ** DataTypeMap *)

(** Attributes of DataTypeMap, element.py:2309-2320 *)
Record DataTypeMap := mkDataTypeMap {
  DataTypeMap_appl_data_type_ref : option ref;
  DataTypeMap_impl_data_type_ref : option ref }.
(** _write_data_type_map, writer.py:1802-1814 *)
Definition write_data_type_map (v : N) (e : DataTypeMap) : out :=
  node "DATA-TYPE-MAP" [] (cat [
    if_set (DataTypeMap_appl_data_type_ref e) (fun a => write_ref "APPLICATION-DATA-TYPE-REF" a);
    if_set (DataTypeMap_impl_data_type_ref e) (fun a => write_ref "IMPLEMENTATION-DATA-TYPE-REF" a) ]).
(** _read_data_type_map, reader.py:2117-2131 *)
Definition read_data_type_map (v : N) (x : xml) : result DataTypeMap :=
  let k := x_kids x in
  let* d_appl_data_type_ref := child "APPLICATION-DATA-TYPE-REF" k (read_ref rc_ApplicationDataTypeRef v) in
  let* d_impl_data_type_ref := child "IMPLEMENTATION-DATA-TYPE-REF" k (read_ref rc_ImplementationDataTypeRef v) in
  Ok (mkDataTypeMap d_appl_data_type_ref d_impl_data_type_ref).

(** ** DataTypeMappingSet *)

(** Attributes of DataTypeMappingSet, element.py:2323-2364 *)
Record DataTypeMappingSet := mkDataTypeMappingSet {
  DataTypeMappingSet_ident : identifiable;
  DataTypeMappingSet_data_type_maps : list DataTypeMap }.
(** _write_data_type_mapping_set, writer.py:1816-1835 *)
Definition write_data_type_mapping_set (v : N) (e : DataTypeMappingSet) : out :=
  node "DATA-TYPE-MAPPING-SET" (identifiable_attributes (DataTypeMappingSet_ident e)) (cat [
    write_referrable (DataTypeMappingSet_ident e);
    write_multilanguage_referrable (DataTypeMappingSet_ident e);
    write_identifiable (DataTypeMappingSet_ident e);
    if_some (DataTypeMappingSet_data_type_maps e) (node "DATA-TYPE-MAPS" [] (for_each (DataTypeMappingSet_data_type_maps e) (fun a => write_data_type_map v a))) ]).
(** _read_read_data_type_mapping_set_group, reader.py:2149-2159 *)
Definition read_read_data_type_mapping_set_group (v : N) (k : list xml) : result ((list DataTypeMap)) :=
  let* d_data_type_maps := children "DATA-TYPE-MAPS" "DATA-TYPE-MAP" k (read_data_type_map v) in
  Ok d_data_type_maps.
(** _read_data_type_mapping_set, reader.py:2133-2147 *)
Definition read_data_type_mapping_set (v : N) (x : xml) : result DataTypeMappingSet :=
  let k := x_kids x in
  let* d_ident := read_ident (x_attrs x) k in
  let* d_data_type_maps := read_read_data_type_mapping_set_group v k in
  let* ident := new_identifiable d_ident in
  Ok (mkDataTypeMappingSet ident d_data_type_maps).

(** ** ModeRequestTypeMap *)

(** Attributes of ModeRequestTypeMap, element.py:3310-3323 *)
Record ModeRequestTypeMap := mkModeRequestTypeMap {
  ModeRequestTypeMap_implementation_data_type : option ref;
  ModeRequestTypeMap_mode_group : option ref }.
(** ModeRequestTypeMap.is_empty, xml/base.py:17-29 *)
Definition ModeRequestTypeMap_is_empty (e : ModeRequestTypeMap) : bool := unset (ModeRequestTypeMap_implementation_data_type e) && unset (ModeRequestTypeMap_mode_group e).
(** _write_mode_request_type_map, writer.py:1953-1968 *)
Definition write_mode_request_type_map (v : N) (e : ModeRequestTypeMap) : out :=
  if ModeRequestTypeMap_is_empty e then empty "MODE-REQUEST-TYPE-MAP" else
  node "MODE-REQUEST-TYPE-MAP" [] (cat [
    if_set (ModeRequestTypeMap_implementation_data_type e) (fun a => write_ref "IMPLEMENTATION-DATA-TYPE-REF" a);
    if_set (ModeRequestTypeMap_mode_group e) (fun a => write_ref "MODE-GROUP-REF" a) ]).
(** _read_mode_request_type_map, reader.py:2269-2283 *)
Definition read_mode_request_type_map (v : N) (x : xml) : result ModeRequestTypeMap :=
  let k := x_kids x in
  let* d_implementation_data_type := child "IMPLEMENTATION-DATA-TYPE-REF" k (read_ref rc_ImplementationDataTypeRef v) in
  let* d_mode_group := child "MODE-GROUP-REF" k (read_ref rc_ModeDeclarationGroupRef v) in
  Ok (mkModeRequestTypeMap d_implementation_data_type d_mode_group).

(** ** ModeDeclaration *)

(** Attributes of ModeDeclaration, element.py:3110-3131 *)
Record ModeDeclaration := mkModeDeclaration {
  ModeDeclaration_ident : identifiable;
  ModeDeclaration_value : option Z }.
(** _write_mode_declaration, writer.py:2781-2793 *)
Definition write_mode_declaration (v : N) (e : ModeDeclaration) : out :=
  node "MODE-DECLARATION" [] (cat [
    write_referrable (ModeDeclaration_ident e);
    write_multilanguage_referrable (ModeDeclaration_ident e);
    write_identifiable (ModeDeclaration_ident e);
    if_set (ModeDeclaration_value e) (fun a => content "VALUE" (Ok (zstr a))) ]).
(** _read_port_interface, reader.py:3331-3340 *)
Definition read_port_interface (v : N) (k : list xml) : result (option bool) :=
  let* d_is_service := child "IS-SERVICE" k rd_boolean in
  Ok d_is_service.
(** _read_mode_declaration, reader.py:3193-3209 *)
Definition read_mode_declaration (v : N) (x : xml) : result ModeDeclaration :=
  let k := x_kids x in
  let* d_ident := read_ident (x_attrs x) k in
  let* d_is_service := read_port_interface v k in
  let* d_value := child "VALUE" k rd_positive in
  let* _ := unexpected ["IS-SERVICE"] k in
  let* ident := new_identifiable d_ident in
  Ok (mkModeDeclaration ident d_value).

(** ** ModeErrorBehavior *)

(** Attributes of ModeErrorBehavior, element.py:3134-3147 *)
Record ModeErrorBehavior := mkModeErrorBehavior {
  ModeErrorBehavior_default_mode_ref : option ref;
  ModeErrorBehavior_error_reaction_policy : option ModeErrorReactionPolicy }.
(** ModeErrorBehavior.is_empty, xml/base.py:17-29 *)
Definition ModeErrorBehavior_is_empty (e : ModeErrorBehavior) : bool := unset (ModeErrorBehavior_default_mode_ref e) && unset (ModeErrorBehavior_error_reaction_policy e).
(** _write_mode_error_behavior, writer.py:2795-2809 *)
Definition write_mode_error_behavior (v : N) (tag : string) (e : ModeErrorBehavior) : out :=
  if ModeErrorBehavior_is_empty e then empty tag else
  node tag [] (cat [
    if_set (ModeErrorBehavior_default_mode_ref e) (fun a => write_ref "DEFAULT-MODE-REF" a);
    if_set (ModeErrorBehavior_error_reaction_policy e) (fun a => content "ERROR-REACTION-POLICY" (enum_text em_ModeErrorReactionPolicy a)) ]).
(** _read_mode_error_behavior, reader.py:3211-3224 *)
Definition read_mode_error_behavior (v : N) (x : xml) : result ModeErrorBehavior :=
  let k := x_kids x in
  let* d_default_mode_ref := child "DEFAULT-MODE-REF" k (read_ref rc_ModeDeclarationRef v) in
  let* d_error_reaction_policy := child "ERROR-REACTION-POLICY" k (rd_enum em_ModeErrorReactionPolicy) in
  Ok (mkModeErrorBehavior d_default_mode_ref d_error_reaction_policy).

(** ** ModeTransition *)

(** Attributes of ModeTransition, element.py:3150-3165 *)
Record ModeTransition := mkModeTransition {
  ModeTransition_ident : identifiable;
  ModeTransition_entered_mode_ref : option ref;
  ModeTransition_exited_mode_ref : option ref }.
(** _write_mode_transition_group, writer.py:2824-2831 *)
Definition write_mode_transition_group (v : N) (f_entered_mode_ref : option ref) (f_exited_mode_ref : option ref) : out :=
  cat [
    if_set f_entered_mode_ref (fun a => write_ref "ENTERED-MODE-REF" a);
    if_set f_exited_mode_ref (fun a => write_ref "EXITED-MODE-REF" a) ].
(** _write_mode_transition, writer.py:2811-2822 *)
Definition write_mode_transition (v : N) (e : ModeTransition) : out :=
  node "MODE-TRANSITION" [] (cat [
    write_referrable (ModeTransition_ident e);
    write_multilanguage_referrable (ModeTransition_ident e);
    write_identifiable (ModeTransition_ident e);
    write_mode_transition_group v (ModeTransition_entered_mode_ref e) (ModeTransition_exited_mode_ref e) ]).
(** _read_mode_transition_group, reader.py:3240-3249 *)
Definition read_mode_transition_group (v : N) (k : list xml) : result (option ref * option ref) :=
  let* d_entered_mode_ref := child "ENTERED-MODE-REF" k (read_ref rc_ModeDeclarationRef v) in
  let* d_exited_mode_ref := child "EXITED-MODE-REF" k (read_ref rc_ModeDeclarationRef v) in
  Ok (d_entered_mode_ref, d_exited_mode_ref).
(** _read_mode_transition, reader.py:3226-3238 *)
Definition read_mode_transition (v : N) (x : xml) : result ModeTransition :=
  let k := x_kids x in
  let* d_ident := read_ident (x_attrs x) k in
  let* (d_entered_mode_ref, d_exited_mode_ref) := read_mode_transition_group v k in
  let* ident := new_identifiable d_ident in
  Ok (mkModeTransition ident d_entered_mode_ref d_exited_mode_ref).

(** ** ModeDeclarationGroupPrototype *)

(** Attributes of ModeDeclarationGroupPrototype, element.py:3283-3307 *)
Record ModeDeclarationGroupPrototype := mkModeDeclarationGroupPrototype {
  ModeDeclarationGroupPrototype_ident : identifiable;
  ModeDeclarationGroupPrototype_calibration_access : option SwCalibrationAccess;
  ModeDeclarationGroupPrototype_type_ref : option ref }.
(** _write_mode_declaration_group_prototype_data, writer.py:2887-2895 *)
Definition write_mode_declaration_group_prototype_data (v : N) (f_calibration_access : option SwCalibrationAccess) (f_type_ref : option ref) : out :=
  cat [
    if_set f_calibration_access (fun a => content "SW-CALIBRATION-ACCESS" (enum_text em_SwCalibrationAccess a));
    if_set f_type_ref (fun a => write_ref "TYPE-TREF" a) ].
(** _write_mode_declaration_group_prototype, writer.py:2871-2885 *)
Definition write_mode_declaration_group_prototype (v : N) (tag : string) (e : ModeDeclarationGroupPrototype) : out :=
  node tag (identifiable_attributes (ModeDeclarationGroupPrototype_ident e)) (cat [
    write_referrable (ModeDeclarationGroupPrototype_ident e);
    write_multilanguage_referrable (ModeDeclarationGroupPrototype_ident e);
    write_identifiable (ModeDeclarationGroupPrototype_ident e);
    write_mode_declaration_group_prototype_data v (ModeDeclarationGroupPrototype_calibration_access e) (ModeDeclarationGroupPrototype_type_ref e) ]).
(** _read_mode_declaration_group_prototype_data, reader.py:3316-3327 *)
Definition read_mode_declaration_group_prototype_data (v : N) (k : list xml) : result (option SwCalibrationAccess * option ref) :=
  let* d_calibration_access := child "SW-CALIBRATION-ACCESS" k (rd_enum em_SwCalibrationAccess) in
  let* d_type_ref := child "TYPE-TREF" k (read_ref rc_ModeDeclarationGroupRef v) in
  Ok (d_calibration_access, d_type_ref).
(** _read_mode_declaration_group_prototype, reader.py:3299-3314 *)
Definition read_mode_declaration_group_prototype (v : N) (x : xml) : result ModeDeclarationGroupPrototype :=
  let k := x_kids x in
  let* d_ident := read_ident (x_attrs x) k in
  let* (d_calibration_access, d_type_ref) := read_mode_declaration_group_prototype_data v k in
  let* ident := new_identifiable d_ident in
  Ok (mkModeDeclarationGroupPrototype ident d_calibration_access d_type_ref).

(** ** InvalidationPolicy *)

(** Attributes of InvalidationPolicy, element.py:3355-3367 *)
Record InvalidationPolicy := mkInvalidationPolicy {
  InvalidationPolicy_data_element_ref : option ref;
  InvalidationPolicy_handle_invalid : option HandleInvalid }.
(** InvalidationPolicy.is_empty, xml/base.py:17-29 *)
Definition InvalidationPolicy_is_empty (e : InvalidationPolicy) : bool := unset (InvalidationPolicy_data_element_ref e) && unset (InvalidationPolicy_handle_invalid e).
(** _write_invalidation_policy_group, writer.py:3003-3011 *)
Definition write_invalidation_policy_group (v : N) (f_data_element_ref : option ref) (f_handle_invalid : option HandleInvalid) : out :=
  cat [
    if_set f_data_element_ref (fun a => write_ref "DATA-ELEMENT-REF" a);
    if_set f_handle_invalid (fun a => content "HANDLE-INVALID" (enum_text em_HandleInvalid a)) ].
(** _write_invalidation_policy, writer.py:2989-3001 *)
Definition write_invalidation_policy (v : N) (e : InvalidationPolicy) : out :=
  if InvalidationPolicy_is_empty e then empty "INVALIDATION-POLICY" else
  node "INVALIDATION-POLICY" [] (cat [
    write_invalidation_policy_group v (InvalidationPolicy_data_element_ref e) (InvalidationPolicy_handle_invalid e) ]).
(** _read_invalidation_policy, reader.py:3438-3451 *)
Definition read_invalidation_policy (v : N) (x : xml) : result InvalidationPolicy :=
  let k := x_kids x in
  let* d_data_element_ref := child "DATA-ELEMENT-REF" k (read_ref rc_VariableDataPrototypeRef v) in
  let* d_handle_invalid := child "HANDLE-INVALID" k (rd_enum em_HandleInvalid) in
  Ok (mkInvalidationPolicy d_data_element_ref d_handle_invalid).

(** ** ApplicationError *)

(** Attributes of ApplicationError, element.py:3583-3605 *)
Record ApplicationError := mkApplicationError {
  ApplicationError_ident : identifiable;
  ApplicationError_error_code : option Z }.
(** _write_application_error_group, writer.py:3026-3031 *)
Definition write_application_error_group (v : N) (f_error_code : option Z) : out :=
  cat [
    if_set f_error_code (fun a => content "ERROR-CODE" (Ok (zstr a))) ].
(** _write_application_error, writer.py:3013-3024 *)
Definition write_application_error (v : N) (e : ApplicationError) : out :=
  node "APPLICATION-ERROR" [] (cat [
    write_referrable (ApplicationError_ident e);
    write_multilanguage_referrable (ApplicationError_ident e);
    write_identifiable (ApplicationError_ident e);
    write_application_error_group v (ApplicationError_error_code e) ]).
(** _read_application_error_group, reader.py:3467-3473 *)
Definition read_application_error_group (v : N) (k : list xml) : result (option Z) :=
  let* d_error_code := child "ERROR-CODE" k rd_integer in
  Ok d_error_code.
(** _read_application_error, reader.py:3453-3465 *)
Definition read_application_error (v : N) (x : xml) : result ApplicationError :=
  let k := x_kids x in
  let* d_ident := read_ident (x_attrs x) k in
  let* d_error_code := read_application_error_group v k in
  let* ident := new_identifiable d_ident in
  Ok (mkApplicationError ident d_error_code).

(** ** ModeSwitchInterface *)

(** Attributes of ModeSwitchInterface, element.py:3849-3890 *)
Record ModeSwitchInterface := mkModeSwitchInterface {
  ModeSwitchInterface_ident : identifiable;
  ModeSwitchInterface_is_service : option bool;
  ModeSwitchInterface_service_kind : option ServiceKind;
  ModeSwitchInterface_mode_group : option ModeDeclarationGroupPrototype }.
(** _write_port_interface, writer.py:2899-2907 *)
Definition write_port_interface (v : N) (f_is_service : option bool) (f_service_kind : option ServiceKind) : out :=
  cat [
    if_set f_is_service (fun a => content "IS-SERVICE" (Ok (format_boolean a)));
    if_set f_service_kind (fun a => content "SERVICE-KIND" (enum_text em_ServiceKind a)) ].
(** _write_mode_switch_interface, writer.py:3094-3107 *)
Definition write_mode_switch_interface (v : N) (e : ModeSwitchInterface) : out :=
  node "MODE-SWITCH-INTERFACE" [] (cat [
    write_referrable (ModeSwitchInterface_ident e);
    write_multilanguage_referrable (ModeSwitchInterface_ident e);
    write_identifiable (ModeSwitchInterface_ident e);
    write_port_interface v (ModeSwitchInterface_is_service e) (ModeSwitchInterface_service_kind e);
    if_set (ModeSwitchInterface_mode_group e) (fun a => write_mode_declaration_group_prototype v "MODE-GROUP" a) ]).
(** _read_mode_switch_interface, reader.py:3555-3570 *)
Definition read_mode_switch_interface (v : N) (x : xml) : result ModeSwitchInterface :=
  let k := x_kids x in
  let* d_ident := read_ident (x_attrs x) k in
  let* d_is_service := read_port_interface v k in
  let* d_mode_group := child "MODE-GROUP" k (read_mode_declaration_group_prototype v) in
  let* ident := new_identifiable d_ident in
  Ok (mkModeSwitchInterface ident d_is_service None d_mode_group).

(** ** EndToEndTransformationComSpecProps *)

(** Attributes of EndToEndTransformationComSpecProps, element.py:3920-3981 *)
Record EndToEndTransformationComSpecProps := mkEndToEndTransformationComSpecProps {
  EndToEndTransformationComSpecProps_desc : option (list lang_text);
  EndToEndTransformationComSpecProps_category : option string;
  EndToEndTransformationComSpecProps_introduction : option DocumentationBlock;
  EndToEndTransformationComSpecProps_admin_data : option AdminData;
  EndToEndTransformationComSpecProps_clear_from_valid_to_invalid : option bool;
  EndToEndTransformationComSpecProps_disable_e2e_check : option bool;
  EndToEndTransformationComSpecProps_disable_e2e_state_machine : option bool;
  EndToEndTransformationComSpecProps_e2e_profile_compatibility_props_ref : option ref;
  EndToEndTransformationComSpecProps_max_delta_counter : option Z;
  EndToEndTransformationComSpecProps_max_error_state_init : option Z;
  EndToEndTransformationComSpecProps_max_error_state_invalid : option Z;
  EndToEndTransformationComSpecProps_max_error_state_valid : option Z;
  EndToEndTransformationComSpecProps_max_no_new_repeated_data : option Z;
  EndToEndTransformationComSpecProps_min_ok_state_init : option Z;
  EndToEndTransformationComSpecProps_min_ok_state_invalid : option Z;
  EndToEndTransformationComSpecProps_min_ok_state_valid : option Z;
  EndToEndTransformationComSpecProps_sync_counter_init : option Z;
  EndToEndTransformationComSpecProps_window_size : option Z;
  EndToEndTransformationComSpecProps_window_size_init : option Z;
  EndToEndTransformationComSpecProps_window_size_invalid : option Z;
  EndToEndTransformationComSpecProps_window_size_valid : option Z }.
(** EndToEndTransformationComSpecProps.is_empty, xml/base.py:17-29 *)
Definition EndToEndTransformationComSpecProps_is_empty (e : EndToEndTransformationComSpecProps) : bool := unset (EndToEndTransformationComSpecProps_desc e) && unset (EndToEndTransformationComSpecProps_category e) && unset (EndToEndTransformationComSpecProps_introduction e) && unset (EndToEndTransformationComSpecProps_admin_data e) && unset (EndToEndTransformationComSpecProps_clear_from_valid_to_invalid e) && unset (EndToEndTransformationComSpecProps_disable_e2e_check e) && unset (EndToEndTransformationComSpecProps_disable_e2e_state_machine e) && unset (EndToEndTransformationComSpecProps_e2e_profile_compatibility_props_ref e) && unset (EndToEndTransformationComSpecProps_max_delta_counter e) && unset (EndToEndTransformationComSpecProps_max_error_state_init e) && unset (EndToEndTransformationComSpecProps_max_error_state_invalid e) && unset (EndToEndTransformationComSpecProps_max_error_state_valid e) && unset (EndToEndTransformationComSpecProps_max_no_new_repeated_data e) && unset (EndToEndTransformationComSpecProps_min_ok_state_init e) && unset (EndToEndTransformationComSpecProps_min_ok_state_invalid e) && unset (EndToEndTransformationComSpecProps_min_ok_state_valid e) && unset (EndToEndTransformationComSpecProps_sync_counter_init e) && unset (EndToEndTransformationComSpecProps_window_size e) && unset (EndToEndTransformationComSpecProps_window_size_init e) && unset (EndToEndTransformationComSpecProps_window_size_invalid e) && unset (EndToEndTransformationComSpecProps_window_size_valid e).
(** _write_describable, writer.py:937-949 *)
Definition write_describable (v : N) (f_desc : option (list lang_text)) (f_category : option string) (f_introduction : option DocumentationBlock) (f_admin_data : option AdminData) : out :=
  cat [
    if_set f_desc (fun a => write_langs "DESC" "L-2" a);
    if_set f_category (fun a => content "CATEGORY" (Ok a));
    if_set f_introduction (fun a => write_doc "INTRODUCTION" a);
    if_set f_admin_data (fun a => write_admin_data a) ].
(** _write_e2e_transformation_com_spec_props_group, writer.py:3126-3164 *)
Definition write_e2e_transformation_com_spec_props_group (v : N) (f_clear_from_valid_to_invalid : option bool) (f_disable_e2e_check : option bool) (f_disable_e2e_state_machine : option bool) (f_e2e_profile_compatibility_props_ref : option ref) (f_max_delta_counter : option Z) (f_max_error_state_init : option Z) (f_max_error_state_invalid : option Z) (f_max_error_state_valid : option Z) (f_max_no_new_repeated_data : option Z) (f_min_ok_state_init : option Z) (f_min_ok_state_invalid : option Z) (f_min_ok_state_valid : option Z) (f_sync_counter_init : option Z) (f_window_size : option Z) (f_window_size_init : option Z) (f_window_size_invalid : option Z) (f_window_size_valid : option Z) : out :=
  cat [
    if_set f_clear_from_valid_to_invalid (fun a => content "CLEAR-FROM-VALID-TO-INVALID" (Ok (format_boolean a)));
    if_set f_disable_e2e_check (fun a => content "DISABLE-END-TO-END-CHECK" (Ok (format_boolean a)));
    if_set f_disable_e2e_state_machine (fun a => content "DISABLE-END-TO-END-STATE-MACHINE" (Ok (format_boolean a)));
    if_set f_e2e_profile_compatibility_props_ref (fun a => write_ref "E-2-E-PROFILE-COMPATIBILITY-PROPS-REF" a);
    if_set f_max_delta_counter (fun a => content "MAX-DELTA-COUNTER" (Ok (zstr a)));
    if_set f_max_error_state_init (fun a => content "MAX-ERROR-STATE-INIT" (Ok (zstr a)));
    if_set f_max_error_state_invalid (fun a => content "MAX-ERROR-STATE-INVALID" (Ok (zstr a)));
    if_set f_max_error_state_valid (fun a => content "MAX-ERROR-STATE-VALID" (Ok (zstr a)));
    if_set f_max_no_new_repeated_data (fun a => content "MAX-NO-NEW-OR-REPEATED-DATA" (Ok (zstr a)));
    if_set f_min_ok_state_init (fun a => content "MIN-OK-STATE-INIT" (Ok (zstr a)));
    if_set f_min_ok_state_invalid (fun a => content "MIN-OK-STATE-INVALID" (Ok (zstr a)));
    if_set f_min_ok_state_valid (fun a => content "MIN-OK-STATE-VALID" (Ok (zstr a)));
    if_set f_sync_counter_init (fun a => content "SYNC-COUNTER-INIT" (Ok (zstr a)));
    if_set f_window_size (fun a => content "WINDOW-SIZE" (Ok (zstr a)));
    if_set f_window_size_init (fun a => content "WINDOW-SIZE-INIT" (Ok (zstr a)));
    if_set f_window_size_invalid (fun a => content "WINDOW-SIZE-INVALID" (Ok (zstr a)));
    if_set f_window_size_valid (fun a => content "WINDOW-SIZE-VALID" (Ok (zstr a))) ].
(** _write_e2e_transformation_com_spec_props, writer.py:3111-3124 *)
Definition write_e2e_transformation_com_spec_props (v : N) (e : EndToEndTransformationComSpecProps) : out :=
  if EndToEndTransformationComSpecProps_is_empty e then empty "END-TO-END-TRANSFORMATION-COM-SPEC-PROPS" else
  node "END-TO-END-TRANSFORMATION-COM-SPEC-PROPS" [] (cat [
    write_describable v (EndToEndTransformationComSpecProps_desc e) (EndToEndTransformationComSpecProps_category e) (EndToEndTransformationComSpecProps_introduction e) (EndToEndTransformationComSpecProps_admin_data e);
    write_e2e_transformation_com_spec_props_group v (EndToEndTransformationComSpecProps_clear_from_valid_to_invalid e) (EndToEndTransformationComSpecProps_disable_e2e_check e) (EndToEndTransformationComSpecProps_disable_e2e_state_machine e) (EndToEndTransformationComSpecProps_e2e_profile_compatibility_props_ref e) (EndToEndTransformationComSpecProps_max_delta_counter e) (EndToEndTransformationComSpecProps_max_error_state_init e) (EndToEndTransformationComSpecProps_max_error_state_invalid e) (EndToEndTransformationComSpecProps_max_error_state_valid e) (EndToEndTransformationComSpecProps_max_no_new_repeated_data e) (EndToEndTransformationComSpecProps_min_ok_state_init e) (EndToEndTransformationComSpecProps_min_ok_state_invalid e) (EndToEndTransformationComSpecProps_min_ok_state_valid e) (EndToEndTransformationComSpecProps_sync_counter_init e) (EndToEndTransformationComSpecProps_window_size e) (EndToEndTransformationComSpecProps_window_size_init e) (EndToEndTransformationComSpecProps_window_size_invalid e) (EndToEndTransformationComSpecProps_window_size_valid e) ]).
(** _read_describable, reader.py:1128-1142 *)
Definition read_describable (v : N) (k : list xml) : result (option (list lang_text) * option string * option DocumentationBlock) :=
  let* d_desc := child "DESC" k (read_langs "L-2") in
  let* d_category := child_text "CATEGORY" k in
  let* d_introduction := child "INTRODUCTION" k read_doc in
  Ok (d_desc, d_category, d_introduction).
(** _read_e2e_transformation_com_spec_props_group, reader.py:3588-3642 *)
Definition read_e2e_transformation_com_spec_props_group (v : N) (k : list xml) : result (option bool * option bool * option bool * option ref * option Z * option Z * option Z * option Z * option Z * option Z * option Z * option Z * option Z * option Z * option Z * option Z * option Z) :=
  let* d_clear_from_valid_to_invalid := child "CLEAR-FROM-VALID-TO-INVALID" k rd_boolean in
  let* d_disable_e2e_check := child "DISABLE-END-TO-END-CHECK" k rd_boolean in
  let* d_disable_e2e_state_machine := child "DISABLE-END-TO-END-STATE-MACHINE" k rd_boolean in
  let* d_e2e_profile_compatibility_props_ref := child "E-2-E-PROFILE-COMPATIBILITY-PROPS-REF" k (read_ref rc_E2EProfileCompatibilityPropsRef v) in
  let* d_max_delta_counter := child "MAX-DELTA-COUNTER" k rd_positive in
  let* d_max_error_state_init := child "MAX-ERROR-STATE-INIT" k rd_positive in
  let* d_max_error_state_invalid := child "MAX-ERROR-STATE-INVALID" k rd_positive in
  let* d_max_error_state_valid := child "MAX-ERROR-STATE-VALID" k rd_positive in
  let* d_max_no_new_repeated_data := child "MAX-NO-NEW-OR-REPEATED-DATA" k rd_positive in
  let* d_min_ok_state_init := child "MIN-OK-STATE-INIT" k rd_positive in
  let* d_min_ok_state_invalid := child "MIN-OK-STATE-INVALID" k rd_positive in
  let* d_min_ok_state_valid := child "MIN-OK-STATE-VALID" k rd_positive in
  let* d_sync_counter_init := child "SYNC-COUNTER-INIT" k rd_positive in
  let* d_window_size := child "WINDOW-SIZE" k rd_positive in
  let* d_window_size_init := child "WINDOW-SIZE-INIT" k rd_positive in
  let* d_window_size_invalid := child "WINDOW-SIZE-INVALID" k rd_positive in
  let* d_window_size_valid := child "WINDOW-SIZE-VALID" k rd_positive in
  Ok (d_clear_from_valid_to_invalid, d_disable_e2e_check, d_disable_e2e_state_machine, d_e2e_profile_compatibility_props_ref, d_max_delta_counter, d_max_error_state_init, d_max_error_state_invalid, d_max_error_state_valid, d_max_no_new_repeated_data, d_min_ok_state_init, d_min_ok_state_invalid, d_min_ok_state_valid, d_sync_counter_init, d_window_size, d_window_size_init, d_window_size_invalid, d_window_size_valid).
(** _read_e2e_transformation_com_spec_props, reader.py:3574-3586 *)
Definition read_e2e_transformation_com_spec_props (v : N) (x : xml) : result EndToEndTransformationComSpecProps :=
  let k := x_kids x in
  let* (d_desc, d_category, d_introduction) := read_describable v k in
  let* (d_clear_from_valid_to_invalid, d_disable_e2e_check, d_disable_e2e_state_machine, d_e2e_profile_compatibility_props_ref, d_max_delta_counter, d_max_error_state_init, d_max_error_state_invalid, d_max_error_state_valid, d_max_no_new_repeated_data, d_min_ok_state_init, d_min_ok_state_invalid, d_min_ok_state_valid, d_sync_counter_init, d_window_size, d_window_size_init, d_window_size_invalid, d_window_size_valid) := read_e2e_transformation_com_spec_props_group v k in
  Ok (mkEndToEndTransformationComSpecProps d_desc d_category d_introduction None d_clear_from_valid_to_invalid d_disable_e2e_check d_disable_e2e_state_machine d_e2e_profile_compatibility_props_ref d_max_delta_counter d_max_error_state_init d_max_error_state_invalid d_max_error_state_valid d_max_no_new_repeated_data d_min_ok_state_init d_min_ok_state_invalid d_min_ok_state_valid d_sync_counter_init d_window_size d_window_size_init d_window_size_invalid d_window_size_valid).

(** ** E2EProfileCompatibilityProps *)

(** Attributes of E2EProfileCompatibilityProps, element.py:3895-3917 *)
Record E2EProfileCompatibilityProps := mkE2EProfileCompatibilityProps {
  E2EProfileCompatibilityProps_ident : identifiable;
  E2EProfileCompatibilityProps_transit_to_invalid_extended : option bool }.
(** _write_e2e_profile_compatibility_props, writer.py:3166-3178 *)
Definition write_e2e_profile_compatibility_props (v : N) (e : E2EProfileCompatibilityProps) : out :=
  node "E-2-E-PROFILE-COMPATIBILITY-PROPS" [] (cat [
    write_referrable (E2EProfileCompatibilityProps_ident e);
    write_multilanguage_referrable (E2EProfileCompatibilityProps_ident e);
    write_identifiable (E2EProfileCompatibilityProps_ident e);
    if_set (E2EProfileCompatibilityProps_transit_to_invalid_extended e) (fun a => content "TRANSIT-TO-INVALID-EXTENDED" (Ok (format_boolean a))) ]).
(** _read_e2e_profile_compatibility_props_group, reader.py:3660-3666 *)
Definition read_e2e_profile_compatibility_props_group (v : N) (k : list xml) : result (option bool) :=
  let* d_transit_to_invalid_extended := child "TRANSIT-TO-INVALID-EXTENDED" k rd_boolean in
  Ok d_transit_to_invalid_extended.
(** _read_e2e_profile_compatibility_props, reader.py:3644-3658 *)
Definition read_e2e_profile_compatibility_props (v : N) (x : xml) : result E2EProfileCompatibilityProps :=
  let k := x_kids x in
  let* d_ident := read_ident (x_attrs x) k in
  let* d_transit_to_invalid_extended := read_e2e_profile_compatibility_props_group v k in
  let* ident := new_identifiable d_ident in
  Ok (mkE2EProfileCompatibilityProps ident d_transit_to_invalid_extended).

(** ** ModeSwitchedAckRequest *)

(** Attributes of ModeSwitchedAckRequest, element.py:3987-3996 *)
Record ModeSwitchedAckRequest := mkModeSwitchedAckRequest {
  ModeSwitchedAckRequest_timeout : option pynum }.
(** ModeSwitchedAckRequest.is_empty, xml/base.py:17-29 *)
Definition ModeSwitchedAckRequest_is_empty (e : ModeSwitchedAckRequest) : bool := unset (ModeSwitchedAckRequest_timeout e).
(** _write_mode_switched_ack_request, writer.py:3182-3195 *)
Definition write_mode_switched_ack_request (v : N) (e : ModeSwitchedAckRequest) : out :=
  if ModeSwitchedAckRequest_is_empty e then empty "MODE-SWITCHED-ACK" else
  node "MODE-SWITCHED-ACK" [] (cat [
    if_set (ModeSwitchedAckRequest_timeout e) (fun a => content "TIMEOUT" (format_float a)) ]).
(** _read_mode_switched_ack_request, reader.py:3670-3681 *)
Definition read_mode_switched_ack_request (v : N) (x : xml) : result ModeSwitchedAckRequest :=
  let k := x_kids x in
  let* d_timeout := child "TIMEOUT" k rd_number in
  Ok (mkModeSwitchedAckRequest (option_map as_float d_timeout)).

(** ** ModeSwitchSenderComSpec *)

(** Attributes of ModeSwitchSenderComSpec, element.py:4186-4213 *)
Record ModeSwitchSenderComSpec := mkModeSwitchSenderComSpec {
  ModeSwitchSenderComSpec_mode_group_ref : option ref;
  ModeSwitchSenderComSpec_enhanced_mode_api : option bool;
  ModeSwitchSenderComSpec_mode_switched_ack : option ModeSwitchedAckRequest;
  ModeSwitchSenderComSpec_queue_length : option Z }.
(** ModeSwitchSenderComSpec.is_empty, xml/base.py:17-29 *)
Definition ModeSwitchSenderComSpec_is_empty (e : ModeSwitchSenderComSpec) : bool := unset (ModeSwitchSenderComSpec_mode_group_ref e) && unset (ModeSwitchSenderComSpec_enhanced_mode_api e) && unset (ModeSwitchSenderComSpec_mode_switched_ack e) && unset (ModeSwitchSenderComSpec_queue_length e).
(** _write_mode_switch_sender_com_spec_group, writer.py:3211-3224 *)
Definition write_mode_switch_sender_com_spec_group (v : N) (f_enhanced_mode_api : option bool) (f_mode_group_ref : option ref) (f_mode_switched_ack : option ModeSwitchedAckRequest) (f_queue_length : option Z) : out :=
  cat [
    if_set f_enhanced_mode_api (fun a => content "ENHANCED-MODE-API" (Ok (format_boolean a)));
    if_set f_mode_group_ref (fun a => write_ref "MODE-GROUP-REF" a);
    if_set f_mode_switched_ack (fun a => write_mode_switched_ack_request v a);
    if_set f_queue_length (fun a => content "QUEUE-LENGTH" (Ok (zstr a))) ].
(** _write_mode_switch_sender_com_spec, writer.py:3197-3209 *)
Definition write_mode_switch_sender_com_spec (v : N) (e : ModeSwitchSenderComSpec) : out :=
  if ModeSwitchSenderComSpec_is_empty e then empty "MODE-SWITCH-SENDER-COM-SPEC" else
  node "MODE-SWITCH-SENDER-COM-SPEC" [] (cat [
    write_mode_switch_sender_com_spec_group v (ModeSwitchSenderComSpec_enhanced_mode_api e) (ModeSwitchSenderComSpec_mode_group_ref e) (ModeSwitchSenderComSpec_mode_switched_ack e) (ModeSwitchSenderComSpec_queue_length e) ]).
(** _read_mode_switch_sender_com_spec, reader.py:3683-3703 *)
Definition read_mode_switch_sender_com_spec (v : N) (x : xml) : result ModeSwitchSenderComSpec :=
  let k := x_kids x in
  let* d_enhanced_mode_api := child "ENHANCED-MODE-API" k rd_boolean in
  let* d_mode_group_ref := child "MODE-GROUP-REF" k (read_ref rc_ModeDeclarationGroupPrototypeRef v) in
  let* d_mode_switched_ack := child "MODE-SWITCHED-ACK" k (read_mode_switched_ack_request v) in
  let* d_queue_length := child "QUEUE-LENGTH" k rd_positive in
  Ok (mkModeSwitchSenderComSpec d_mode_group_ref d_enhanced_mode_api d_mode_switched_ack d_queue_length).

(** ** TransmissionAcknowledgementRequest *)

(** Attributes of TransmissionAcknowledgementRequest, element.py:3999-4009 *)
Record TransmissionAcknowledgementRequest := mkTransmissionAcknowledgementRequest {
  TransmissionAcknowledgementRequest_timeout : option pynum }.
(** TransmissionAcknowledgementRequest.is_empty, xml/base.py:17-29 *)
Definition TransmissionAcknowledgementRequest_is_empty (e : TransmissionAcknowledgementRequest) : bool := unset (TransmissionAcknowledgementRequest_timeout e).
(** _write_transmission_acknowledgement_request, writer.py:3226-3239 *)
Definition write_transmission_acknowledgement_request (v : N) (e : TransmissionAcknowledgementRequest) : out :=
  if TransmissionAcknowledgementRequest_is_empty e then empty "TRANSMISSION-ACKNOWLEDGE" else
  node "TRANSMISSION-ACKNOWLEDGE" [] (cat [
    if_set (TransmissionAcknowledgementRequest_timeout e) (fun a => content "TIMEOUT" (format_float a)) ]).
(** _read_transmission_acknowledgement_request, reader.py:3705-3718 *)
Definition read_transmission_acknowledgement_request (v : N) (x : xml) : result TransmissionAcknowledgementRequest :=
  let k := x_kids x in
  let* d_timeout := child "TIMEOUT" k rd_number in
  Ok (mkTransmissionAcknowledgementRequest (option_map as_float d_timeout)).

(** ** TransmissionComSpecProps *)

(** Attributes of TransmissionComSpecProps, element.py:4012-4031 *)
Record TransmissionComSpecProps := mkTransmissionComSpecProps {
  TransmissionComSpecProps_data_update_period : option pynum;
  TransmissionComSpecProps_minimum_send_interval : option pynum;
  TransmissionComSpecProps_transmission_mode : option TransmissionMode }.
(** TransmissionComSpecProps.is_empty, xml/base.py:17-29 *)
Definition TransmissionComSpecProps_is_empty (e : TransmissionComSpecProps) : bool := unset (TransmissionComSpecProps_data_update_period e) && unset (TransmissionComSpecProps_minimum_send_interval e) && unset (TransmissionComSpecProps_transmission_mode e).
(** _write_tranmsission_com_spec_props, writer.py:3241-3258 *)
Definition write_tranmsission_com_spec_props (v : N) (e : TransmissionComSpecProps) : out :=
  if TransmissionComSpecProps_is_empty e then empty "TRANSMISSION-PROPS" else
  node "TRANSMISSION-PROPS" [] (cat [
    if_set (TransmissionComSpecProps_data_update_period e) (fun a => content "DATA-UPDATE-PERIOD" (format_float a));
    if_set (TransmissionComSpecProps_minimum_send_interval e) (fun a => content "MINIMUM-SEND-INTERVAL" (format_float a));
    if_set (TransmissionComSpecProps_transmission_mode e) (fun a => content "TRANSMISSION-MODE" (enum_text em_TransmissionMode a)) ]).
(** _read_tranmsission_com_spec_props, reader.py:3720-3739 *)
Definition read_tranmsission_com_spec_props (v : N) (x : xml) : result TransmissionComSpecProps :=
  let k := x_kids x in
  let* d_data_update_period := child "DATA-UPDATE-PERIOD" k rd_number in
  let* d_minimum_send_interval := child "MINIMUM-SEND-INTERVAL" k rd_number in
  let* d_transmission_mode := child "TRANSMISSION-MODE" k (rd_enum em_TransmissionMode) in
  Ok (mkTransmissionComSpecProps (option_map as_float d_data_update_period) (option_map as_float d_minimum_send_interval) d_transmission_mode).

(** ** ServerComSpec *)

(** Attributes of ServerComSpec, element.py:4283-4325 *)
Record ServerComSpec := mkServerComSpec {
  ServerComSpec_operation_ref : option ref;
  ServerComSpec_queue_length : option Z;
  ServerComSpec_transformation_com_spec_props : list EndToEndTransformationComSpecProps }.
(** ServerComSpec.is_empty, xml/base.py:17-29 *)
Definition ServerComSpec_is_empty (e : ServerComSpec) : bool := unset (ServerComSpec_operation_ref e) && unset (ServerComSpec_queue_length e) && no_items (ServerComSpec_transformation_com_spec_props e).
(** _write_server_com_spec, writer.py:3360-3380 *)
Definition write_server_com_spec (v : N) (e : ServerComSpec) : out :=
  if ServerComSpec_is_empty e then empty "SERVER-COM-SPEC" else
  node "SERVER-COM-SPEC" [] (cat [
    if_set (ServerComSpec_operation_ref e) (fun a => write_ref "OPERATION-REF" a);
    if_set (ServerComSpec_queue_length e) (fun a => content "QUEUE-LENGTH" (Ok (zstr a)));
    if_some (ServerComSpec_transformation_com_spec_props e) (node "TRANSFORMATION-COM-SPEC-PROPSS" [] (for_each (ServerComSpec_transformation_com_spec_props e) (fun a => write_e2e_transformation_com_spec_props v a))) ]).
(** _read_server_com_spec_group, reader.py:3883-3900 *)
Definition read_server_com_spec_group (v : N) (k : list xml) : result (option ref * option Z * (list EndToEndTransformationComSpecProps)) :=
  let* d_operation_ref := child "OPERATION-REF" k (read_ref rc_ClientServerOperationRef v) in
  let* d_queue_length := child "QUEUE-LENGTH" k rd_positive in
  let* d_transformation_com_spec_props := children "TRANSFORMATION-COM-SPEC-PROPSS" "END-TO-END-TRANSFORMATION-COM-SPEC-PROPS" k (read_e2e_transformation_com_spec_props v) in
  Ok (d_operation_ref, d_queue_length, d_transformation_com_spec_props).
(** _read_server_com_spec, reader.py:3870-3881 *)
Definition read_server_com_spec (v : N) (x : xml) : result ServerComSpec :=
  let k := x_kids x in
  let* (d_operation_ref, d_queue_length, d_transformation_com_spec_props) := read_server_com_spec_group v k in
  Ok (mkServerComSpec d_operation_ref d_queue_length d_transformation_com_spec_props).

(** ** ModeSwitchReceiverComSpec *)

(** Attributes of ModeSwitchReceiverComSpec, element.py:4616-4633 *)
Record ModeSwitchReceiverComSpec := mkModeSwitchReceiverComSpec {
  ModeSwitchReceiverComSpec_mode_group_ref : option ref;
  ModeSwitchReceiverComSpec_enhanced_mode_api : option bool;
  ModeSwitchReceiverComSpec_supports_async : option bool }.
(** ModeSwitchReceiverComSpec.is_empty, xml/base.py:17-29 *)
Definition ModeSwitchReceiverComSpec_is_empty (e : ModeSwitchReceiverComSpec) : bool := unset (ModeSwitchReceiverComSpec_mode_group_ref e) && unset (ModeSwitchReceiverComSpec_enhanced_mode_api e) && unset (ModeSwitchReceiverComSpec_supports_async e).
(** _write_mode_switch_receiver_com_spec, writer.py:3523-3541 *)
Definition write_mode_switch_receiver_com_spec (v : N) (e : ModeSwitchReceiverComSpec) : out :=
  if ModeSwitchReceiverComSpec_is_empty e then empty "MODE-SWITCH-RECEIVER-COM-SPEC" else
  node "MODE-SWITCH-RECEIVER-COM-SPEC" [] (cat [
    if_set (ModeSwitchReceiverComSpec_enhanced_mode_api e) (fun a => content "ENHANCED-MODE-API" (Ok (format_boolean a)));
    if_set (ModeSwitchReceiverComSpec_mode_group_ref e) (fun a => write_ref "MODE-GROUP-REF" a);
    if_set (ModeSwitchReceiverComSpec_supports_async e) (fun a => content "SUPPORTS-ASYNCHRONOUS-MODE-SWITCH" (Ok (format_boolean a))) ]).
(** _read_mode_switch_receiver_com_spec, reader.py:4074-4093 *)
Definition read_mode_switch_receiver_com_spec (v : N) (x : xml) : result ModeSwitchReceiverComSpec :=
  let k := x_kids x in
  let* d_enhanced_mode_api := child "ENHANCED-MODE-API" k rd_boolean in
  let* d_mode_group_ref := child "MODE-GROUP-REF" k (read_ref rc_ModeDeclarationGroupPrototypeRef v) in
  let* d_supports_async := child "SUPPORTS-ASYNCHRONOUS-MODE-SWITCH" k rd_boolean in
  Ok (mkModeSwitchReceiverComSpec d_mode_group_ref d_enhanced_mode_api d_supports_async).

(** ** ClientComSpec *)

(** Attributes of ClientComSpec, element.py:4636-4679 *)
Record ClientComSpec := mkClientComSpec {
  ClientComSpec_operation_ref : option ref;
  ClientComSpec_e2e_call_respone_timeout : option pynum;
  ClientComSpec_transformation_com_spec_props : list EndToEndTransformationComSpecProps }.
(** ClientComSpec.is_empty, xml/base.py:17-29 *)
Definition ClientComSpec_is_empty (e : ClientComSpec) : bool := unset (ClientComSpec_operation_ref e) && unset (ClientComSpec_e2e_call_respone_timeout e) && no_items (ClientComSpec_transformation_com_spec_props e).
(** _write_client_com_spec, writer.py:3543-3564 *)
Definition write_client_com_spec (v : N) (e : ClientComSpec) : out :=
  if ClientComSpec_is_empty e then empty "CLIENT-COM-SPEC" else
  node "CLIENT-COM-SPEC" [] (cat [
    if_set (ClientComSpec_e2e_call_respone_timeout e) (fun a => content "END-TO-END-CALL-RESPONSE-TIMEOUT" (format_float a));
    if_set (ClientComSpec_operation_ref e) (fun a => write_ref "OPERATION-REF" a);
    if_some (ClientComSpec_transformation_com_spec_props e) (node "TRANSFORMATION-COM-SPEC-PROPSS" [] (for_each (ClientComSpec_transformation_com_spec_props e) (fun a => write_e2e_transformation_com_spec_props v a))) ]).
(** _read_client_com_spec_group, reader.py:4108-4126 *)
Definition read_client_com_spec_group (v : N) (k : list xml) : result (option pynum * option ref * (list EndToEndTransformationComSpecProps)) :=
  let* d_e2e_call_respone_timeout := child "END-TO-END-CALL-RESPONSE-TIMEOUT" k rd_number in
  let* d_operation_ref := child "OPERATION-REF" k (read_ref rc_ClientServerOperationRef v) in
  let* d_transformation_com_spec_props := children "TRANSFORMATION-COM-SPEC-PROPSS" "END-TO-END-TRANSFORMATION-COM-SPEC-PROPS" k (read_e2e_transformation_com_spec_props v) in
  Ok (d_e2e_call_respone_timeout, d_operation_ref, d_transformation_com_spec_props).
(** _read_client_com_spec, reader.py:4095-4106 *)
Definition read_client_com_spec (v : N) (x : xml) : result ClientComSpec :=
  let k := x_kids x in
  let* (d_e2e_call_respone_timeout, d_operation_ref, d_transformation_com_spec_props) := read_client_com_spec_group v k in
  Ok (mkClientComSpec d_operation_ref (option_map as_float d_e2e_call_respone_timeout) d_transformation_com_spec_props).

(** ** PassThroughSwConnector *)

(** Attributes of PassThroughSwConnector, element.py:5308-5324 *)
Record PassThroughSwConnector := mkPassThroughSwConnector {
  PassThroughSwConnector_ident : identifiable;
  PassThroughSwConnector_provide_port : option ref;
  PassThroughSwConnector_require_port : option ref }.
(** _write_passthrough_sw_connector, writer.py:3799-3813 *)
Definition write_passthrough_sw_connector (v : N) (e : PassThroughSwConnector) : out :=
  node "PASS-THROUGH-SW-CONNECTOR" [] (cat [
    write_referrable (PassThroughSwConnector_ident e);
    write_multilanguage_referrable (PassThroughSwConnector_ident e);
    write_identifiable (PassThroughSwConnector_ident e);
    if_set (PassThroughSwConnector_provide_port e) (fun a => write_ref "PROVIDED-OUTER-PORT-REF" a);
    if_set (PassThroughSwConnector_require_port e) (fun a => write_ref "REQUIRED-OUTER-PORT-REF" a) ]).
(** _read_sw_connector, reader.py:4356-4361 *)
Definition read_sw_connector (v : N) (k : list xml) : result (unit) :=
  Ok tt.
(** _read_pass_through_sw_connector, reader.py:4386-4405 *)
Definition read_pass_through_sw_connector (v : N) (x : xml) : result PassThroughSwConnector :=
  let k := x_kids x in
  let* d_ident := read_ident (x_attrs x) k in
  let* _ := read_sw_connector v k in
  let* d_provide_port := child "PROVIDED-OUTER-PORT-REF" k (read_ref rc_PortPrototypeRef v) in
  let* d_require_port := child "REQUIRED-OUTER-PORT-REF" k (read_ref rc_PortPrototypeRef v) in
  let* ident := new_identifiable d_ident in
  Ok (mkPassThroughSwConnector ident d_provide_port d_require_port).

(** ** SwcImplementation *)

(** Attributes of SwcImplementation, element.py:5911-5938 *)
Record SwcImplementation := mkSwcImplementation {
  SwcImplementation_ident : identifiable;
  SwcImplementation_code_descriptors : list Code;
  SwcImplementation_behavior_ref : option ref;
  SwcImplementation_required_rte_vendor : option string }.
(** _write_implementtion, writer.py:1333-1342 *)
Definition write_implementtion (v : N) (f_code_descriptors : list Code) : out :=
  cat [
    if_some f_code_descriptors (node "CODE-DESCRIPTORS" [] (for_each f_code_descriptors (fun a => write_code v a))) ].
(** _write_swc_implementation_group, writer.py:3863-3871 *)
Definition write_swc_implementation_group (v : N) (f_behavior_ref : option ref) (f_required_rte_vendor : option string) : out :=
  cat [
    if_set f_behavior_ref (fun a => write_ref "BEHAVIOR-REF" a);
    if_set f_required_rte_vendor (fun a => content "REQUIRED-RTE-VENDOR" (Ok a)) ].
(** _write_swc_implementation, writer.py:3849-3861 *)
Definition write_swc_implementation (v : N) (e : SwcImplementation) : out :=
  node "SWC-IMPLEMENTATION" [] (cat [
    write_referrable (SwcImplementation_ident e);
    write_multilanguage_referrable (SwcImplementation_ident e);
    write_identifiable (SwcImplementation_ident e);
    write_implementtion v (SwcImplementation_code_descriptors e);
    write_swc_implementation_group v (SwcImplementation_behavior_ref e) (SwcImplementation_required_rte_vendor e) ]).
(** _read_implementation, reader.py:1562-1585 *)
Definition read_implementation (v : N) (k : list xml) : result ((list Code)) :=
  let* d_code_descriptors := children "CODE-DESCRIPTORS" "CODE" k (read_code v) in
  Ok d_code_descriptors.
(** _read_swc_implementation_group, reader.py:4466-4476 *)
Definition read_swc_implementation_group (v : N) (k : list xml) : result (option ref * option string) :=
  let* d_behavior_ref := child "BEHAVIOR-REF" k (read_ref rc_SwcInternalBehaviorRef v) in
  let* d_required_rte_vendor := child_text "REQUIRED-RTE-VENDOR" k in
  Ok (d_behavior_ref, d_required_rte_vendor).
(** _read_swc_implementation, reader.py:4449-4464 *)
Definition read_swc_implementation (v : N) (x : xml) : result SwcImplementation :=
  let k := x_kids x in
  let* d_ident := read_ident (x_attrs x) k in
  let* d_code_descriptors := read_implementation v k in
  let* (d_behavior_ref, d_required_rte_vendor) := read_swc_implementation_group v k in
  let* ident := new_identifiable d_ident in
  Ok (mkSwcImplementation ident d_code_descriptors d_behavior_ref d_required_rte_vendor).

(** ** PModeGroupInAtomicSwcInstanceRef *)

(** Attributes of PModeGroupInAtomicSwcInstanceRef, element.py:5577-5596 *)
Record PModeGroupInAtomicSwcInstanceRef := mkPModeGroupInAtomicSwcInstanceRef {
  PModeGroupInAtomicSwcInstanceRef_context_port : option ref;
  PModeGroupInAtomicSwcInstanceRef_target_mode_group : option ref }.
(** PModeGroupInAtomicSwcInstanceRef.is_empty, xml/base.py:17-29 *)
Definition PModeGroupInAtomicSwcInstanceRef_is_empty (e : PModeGroupInAtomicSwcInstanceRef) : bool := unset (PModeGroupInAtomicSwcInstanceRef_context_port e) && unset (PModeGroupInAtomicSwcInstanceRef_target_mode_group e).
(** _write_p_mode_group_in_atomic_swc_instance_ref, writer.py:3873-3891 *)
Definition write_p_mode_group_in_atomic_swc_instance_ref (v : N) (tag : string) (e : PModeGroupInAtomicSwcInstanceRef) : out :=
  if PModeGroupInAtomicSwcInstanceRef_is_empty e then empty tag else
  node tag [] (cat [
    if_set (PModeGroupInAtomicSwcInstanceRef_context_port e) (fun a => write_ref "CONTEXT-P-PORT-REF" a);
    if_set (PModeGroupInAtomicSwcInstanceRef_target_mode_group e) (fun a => write_ref "TARGET-MODE-GROUP-REF" a) ]).
(** _read_p_mode_group_in_atomic_swc_instance_ref, reader.py:4478-4495 *)
Definition read_p_mode_group_in_atomic_swc_instance_ref (v : N) (x : xml) : result PModeGroupInAtomicSwcInstanceRef :=
  let k := x_kids x in
  let* d_context_port := child "CONTEXT-P-PORT-REF" k (read_ref rc_AbstractProvidedPortPrototypeRef v) in
  let* d_target_mode_group := child "TARGET-MODE-GROUP-REF" k (read_ref rc_ModeDeclarationGroupPrototypeRef v) in
  Ok (mkPModeGroupInAtomicSwcInstanceRef d_context_port d_target_mode_group).

(** ** POperationInAtomicSwcInstanceRef *)

(** Attributes of POperationInAtomicSwcInstanceRef, element.py:5559-5574 *)
Record POperationInAtomicSwcInstanceRef := mkPOperationInAtomicSwcInstanceRef {
  POperationInAtomicSwcInstanceRef_context_port : option ref;
  POperationInAtomicSwcInstanceRef_target_provided_operation : option ref }.
(** POperationInAtomicSwcInstanceRef.is_empty, xml/base.py:17-29 *)
Definition POperationInAtomicSwcInstanceRef_is_empty (e : POperationInAtomicSwcInstanceRef) : bool := unset (POperationInAtomicSwcInstanceRef_context_port e) && unset (POperationInAtomicSwcInstanceRef_target_provided_operation e).
(** _write_p_operation_in_atomic_swc_instance_ref, writer.py:3893-3911 *)
Definition write_p_operation_in_atomic_swc_instance_ref (v : N) (e : POperationInAtomicSwcInstanceRef) : out :=
  if POperationInAtomicSwcInstanceRef_is_empty e then empty "OPERATION-IREF" else
  node "OPERATION-IREF" [] (cat [
    if_set (POperationInAtomicSwcInstanceRef_context_port e) (fun a => write_ref "CONTEXT-P-PORT-REF" a);
    if_set (POperationInAtomicSwcInstanceRef_target_provided_operation e) (fun a => write_ref "TARGET-PROVIDED-OPERATION-REF" a) ]).
(** _read_p_operation_in_atomic_swc_instance_ref, reader.py:4497-4513 *)
Definition read_p_operation_in_atomic_swc_instance_ref (v : N) (x : xml) : result POperationInAtomicSwcInstanceRef :=
  let k := x_kids x in
  let* d_context_port := child "CONTEXT-P-PORT-REF" k (read_ref rc_AbstractProvidedPortPrototypeRef v) in
  let* d_target_provided_operation := child "TARGET-PROVIDED-OPERATION-REF" k (read_ref rc_ClientServerOperationRef v) in
  Ok (mkPOperationInAtomicSwcInstanceRef d_context_port d_target_provided_operation).

(** ** PTriggerInAtomicSwcTypeInstanceRef *)

(** Attributes of PTriggerInAtomicSwcTypeInstanceRef, element.py:5599-5616 *)
Record PTriggerInAtomicSwcTypeInstanceRef := mkPTriggerInAtomicSwcTypeInstanceRef {
  PTriggerInAtomicSwcTypeInstanceRef_context_port : option ref;
  PTriggerInAtomicSwcTypeInstanceRef_target_trigger : option ref }.
(** PTriggerInAtomicSwcTypeInstanceRef.is_empty, xml/base.py:17-29 *)
Definition PTriggerInAtomicSwcTypeInstanceRef_is_empty (e : PTriggerInAtomicSwcTypeInstanceRef) : bool := unset (PTriggerInAtomicSwcTypeInstanceRef_context_port e) && unset (PTriggerInAtomicSwcTypeInstanceRef_target_trigger e).
(** _write_p_trigger_in_atomic_swc_instance_ref, writer.py:3913-3931 *)
Definition write_p_trigger_in_atomic_swc_instance_ref (v : N) (tag : string) (e : PTriggerInAtomicSwcTypeInstanceRef) : out :=
  if PTriggerInAtomicSwcTypeInstanceRef_is_empty e then empty tag else
  node tag [] (cat [
    if_set (PTriggerInAtomicSwcTypeInstanceRef_context_port e) (fun a => write_ref "CONTEXT-P-PORT-REF" a);
    if_set (PTriggerInAtomicSwcTypeInstanceRef_target_trigger e) (fun a => write_ref "TARGET-TRIGGER-REF" a) ]).
(** _read_p_trigger_in_atomic_swc_instance_ref, reader.py:4515-4532 *)
Definition read_p_trigger_in_atomic_swc_instance_ref (v : N) (x : xml) : result PTriggerInAtomicSwcTypeInstanceRef :=
  let k := x_kids x in
  let* d_context_port := child "CONTEXT-P-PORT-REF" k (read_ref rc_AbstractProvidedPortPrototypeRef v) in
  let* d_target_trigger := child "TARGET-TRIGGER-REF" k (read_ref rc_TriggerRef v) in
  Ok (mkPTriggerInAtomicSwcTypeInstanceRef d_context_port d_target_trigger).

(** ** RModeInAtomicSwcInstanceRef *)

(** Attributes of RModeInAtomicSwcInstanceRef, element.py:5637-5658 *)
Record RModeInAtomicSwcInstanceRef := mkRModeInAtomicSwcInstanceRef {
  RModeInAtomicSwcInstanceRef_context_port : option ref;
  RModeInAtomicSwcInstanceRef_context_mode_declaration_group_prototype : option ref;
  RModeInAtomicSwcInstanceRef_target_mode_declaration : option ref }.
(** RModeInAtomicSwcInstanceRef.is_empty, xml/base.py:17-29 *)
Definition RModeInAtomicSwcInstanceRef_is_empty (e : RModeInAtomicSwcInstanceRef) : bool := unset (RModeInAtomicSwcInstanceRef_context_port e) && unset (RModeInAtomicSwcInstanceRef_context_mode_declaration_group_prototype e) && unset (RModeInAtomicSwcInstanceRef_target_mode_declaration e).
(** _write_r_mode_in_atomic_swc_instance_ref, writer.py:3933-3950 *)
Definition write_r_mode_in_atomic_swc_instance_ref (v : N) (tag : string) (e : RModeInAtomicSwcInstanceRef) : out :=
  if RModeInAtomicSwcInstanceRef_is_empty e then empty tag else
  node tag [] (cat [
    if_set (RModeInAtomicSwcInstanceRef_context_port e) (fun a => write_ref "CONTEXT-PORT-REF" a);
    if_set (RModeInAtomicSwcInstanceRef_context_mode_declaration_group_prototype e) (fun a => write_ref "CONTEXT-MODE-DECLARATION-GROUP-PROTOTYPE-REF" a);
    if_set (RModeInAtomicSwcInstanceRef_target_mode_declaration e) (fun a => write_ref "TARGET-MODE-DECLARATION-REF" a) ]).
(** _read_r_mode_in_atomic_swc_instance_ref, reader.py:4534-4554 *)
Definition read_r_mode_in_atomic_swc_instance_ref (v : N) (x : xml) : result RModeInAtomicSwcInstanceRef :=
  let k := x_kids x in
  let* d_context_port := child "CONTEXT-PORT-REF" k (read_ref rc_AbstractRequiredPortPrototypeRef v) in
  let* d_context_mode_declaration_group_prototype := child "CONTEXT-MODE-DECLARATION-GROUP-PROTOTYPE-REF" k (read_ref rc_ModeDeclarationGroupPrototypeRef v) in
  let* d_target_mode_declaration := child "TARGET-MODE-DECLARATION-REF" k (read_ref rc_ModeDeclarationRef v) in
  Ok (mkRModeInAtomicSwcInstanceRef d_context_port d_context_mode_declaration_group_prototype d_target_mode_declaration).

(** ** RModeGroupInAtomicSwcInstanceRef *)

(** Attributes of RModeGroupInAtomicSwcInstanceRef, element.py:5661-5677 *)
Record RModeGroupInAtomicSwcInstanceRef := mkRModeGroupInAtomicSwcInstanceRef {
  RModeGroupInAtomicSwcInstanceRef_context_port : option ref;
  RModeGroupInAtomicSwcInstanceRef_target_mode_group : option ref }.
(** RModeGroupInAtomicSwcInstanceRef.is_empty, xml/base.py:17-29 *)
Definition RModeGroupInAtomicSwcInstanceRef_is_empty (e : RModeGroupInAtomicSwcInstanceRef) : bool := unset (RModeGroupInAtomicSwcInstanceRef_context_port e) && unset (RModeGroupInAtomicSwcInstanceRef_target_mode_group e).
(** _write_r_mode_group_in_atomic_swc_instance_ref, writer.py:3952-3968 *)
Definition write_r_mode_group_in_atomic_swc_instance_ref (v : N) (e : RModeGroupInAtomicSwcInstanceRef) : out :=
  if RModeGroupInAtomicSwcInstanceRef_is_empty e then empty "R-MODE-GROUP-IN-ATOMIC-SWC-INSTANCE-REF" else
  node "R-MODE-GROUP-IN-ATOMIC-SWC-INSTANCE-REF" [] (cat [
    if_set (RModeGroupInAtomicSwcInstanceRef_context_port e) (fun a => write_ref "CONTEXT-R-PORT-REF" a);
    if_set (RModeGroupInAtomicSwcInstanceRef_target_mode_group e) (fun a => write_ref "TARGET-MODE-GROUP-REF" a) ]).
(** _read_r_mode_group_in_atomic_swc_instance_ref, reader.py:4556-4572 *)
Definition read_r_mode_group_in_atomic_swc_instance_ref (v : N) (x : xml) : result RModeGroupInAtomicSwcInstanceRef :=
  let k := x_kids x in
  let* d_context_port := child "CONTEXT-R-PORT-REF" k (read_ref rc_AbstractRequiredPortPrototypeRef v) in
  let* d_target_mode_group := child "TARGET-MODE-GROUP-REF" k (read_ref rc_ModeDeclarationGroupPrototypeRef v) in
  Ok (mkRModeGroupInAtomicSwcInstanceRef d_context_port d_target_mode_group).

(** ** ROperationInAtomicSwcInstanceRef *)

(** Attributes of ROperationInAtomicSwcInstanceRef, element.py:5619-5634 *)
Record ROperationInAtomicSwcInstanceRef := mkROperationInAtomicSwcInstanceRef {
  ROperationInAtomicSwcInstanceRef_context_port : option ref;
  ROperationInAtomicSwcInstanceRef_target_required_operation : option ref }.
(** ROperationInAtomicSwcInstanceRef.is_empty, xml/base.py:17-29 *)
Definition ROperationInAtomicSwcInstanceRef_is_empty (e : ROperationInAtomicSwcInstanceRef) : bool := unset (ROperationInAtomicSwcInstanceRef_context_port e) && unset (ROperationInAtomicSwcInstanceRef_target_required_operation e).
(** _write_r_operation_in_atomic_swc_instance_ref, writer.py:3970-3988 *)
Definition write_r_operation_in_atomic_swc_instance_ref (v : N) (e : ROperationInAtomicSwcInstanceRef) : out :=
  if ROperationInAtomicSwcInstanceRef_is_empty e then empty "OPERATION-IREF" else
  node "OPERATION-IREF" [] (cat [
    if_set (ROperationInAtomicSwcInstanceRef_context_port e) (fun a => write_ref "CONTEXT-R-PORT-REF" a);
    if_set (ROperationInAtomicSwcInstanceRef_target_required_operation e) (fun a => write_ref "TARGET-REQUIRED-OPERATION-REF" a) ]).
(** _read_r_operation_in_atomic_swc_instance_ref, reader.py:4574-4590 *)
Definition read_r_operation_in_atomic_swc_instance_ref (v : N) (x : xml) : result ROperationInAtomicSwcInstanceRef :=
  let k := x_kids x in
  let* d_context_port := child "CONTEXT-R-PORT-REF" k (read_ref rc_AbstractRequiredPortPrototypeRef v) in
  let* d_target_required_operation := child "TARGET-REQUIRED-OPERATION-REF" k (read_ref rc_ClientServerOperationRef v) in
  Ok (mkROperationInAtomicSwcInstanceRef d_context_port d_target_required_operation).

(** ** RVariableInAtomicSwcInstanceRef *)

(** Attributes of RVariableInAtomicSwcInstanceRef, element.py:5680-5696 *)
Record RVariableInAtomicSwcInstanceRef := mkRVariableInAtomicSwcInstanceRef {
  RVariableInAtomicSwcInstanceRef_context_port : option ref;
  RVariableInAtomicSwcInstanceRef_target_data_element : option ref }.
(** RVariableInAtomicSwcInstanceRef.is_empty, xml/base.py:17-29 *)
Definition RVariableInAtomicSwcInstanceRef_is_empty (e : RVariableInAtomicSwcInstanceRef) : bool := unset (RVariableInAtomicSwcInstanceRef_context_port e) && unset (RVariableInAtomicSwcInstanceRef_target_data_element e).
(** _write_r_variable_in_atomic_swc_instance_ref, writer.py:3990-4007 *)
Definition write_r_variable_in_atomic_swc_instance_ref (v : N) (e : RVariableInAtomicSwcInstanceRef) : out :=
  if RVariableInAtomicSwcInstanceRef_is_empty e then empty "DATA-IREF" else
  node "DATA-IREF" [] (cat [
    if_set (RVariableInAtomicSwcInstanceRef_context_port e) (fun a => write_ref "CONTEXT-R-PORT-REF" a);
    if_set (RVariableInAtomicSwcInstanceRef_target_data_element e) (fun a => write_ref "TARGET-DATA-ELEMENT-REF" a) ]).
(** _read_r_variable_in_atomic_swc_instance_ref, reader.py:4592-4608 *)
Definition read_r_variable_in_atomic_swc_instance_ref (v : N) (x : xml) : result RVariableInAtomicSwcInstanceRef :=
  let k := x_kids x in
  let* d_context_port := child "CONTEXT-R-PORT-REF" k (read_ref rc_AbstractRequiredPortPrototypeRef v) in
  let* d_target_data_element := child "TARGET-DATA-ELEMENT-REF" k (read_ref rc_VariableDataPrototypeRef v) in
  Ok (mkRVariableInAtomicSwcInstanceRef d_context_port d_target_data_element).

(** ** RTriggerInAtomicSwcInstanceRef *)

(** Attributes of RTriggerInAtomicSwcInstanceRef, element.py:5699-5715 *)
Record RTriggerInAtomicSwcInstanceRef := mkRTriggerInAtomicSwcInstanceRef {
  RTriggerInAtomicSwcInstanceRef_context_port : option ref;
  RTriggerInAtomicSwcInstanceRef_target_trigger : option ref }.
(** RTriggerInAtomicSwcInstanceRef.is_empty, xml/base.py:17-29 *)
Definition RTriggerInAtomicSwcInstanceRef_is_empty (e : RTriggerInAtomicSwcInstanceRef) : bool := unset (RTriggerInAtomicSwcInstanceRef_context_port e) && unset (RTriggerInAtomicSwcInstanceRef_target_trigger e).
(** _write_r_trigger_in_atomic_swc_instance_ref, writer.py:4009-4026 *)
Definition write_r_trigger_in_atomic_swc_instance_ref (v : N) (tag : string) (e : RTriggerInAtomicSwcInstanceRef) : out :=
  if RTriggerInAtomicSwcInstanceRef_is_empty e then empty tag else
  node tag [] (cat [
    if_set (RTriggerInAtomicSwcInstanceRef_context_port e) (fun a => write_ref "CONTEXT-R-PORT-REF" a);
    if_set (RTriggerInAtomicSwcInstanceRef_target_trigger e) (fun a => write_ref "TARGET-TRIGGER-REF" a) ]).
(** _read_r_trigger_in_atomic_swc_instance_ref, reader.py:4610-4626 *)
Definition read_r_trigger_in_atomic_swc_instance_ref (v : N) (x : xml) : result RTriggerInAtomicSwcInstanceRef :=
  let k := x_kids x in
  let* d_context_port := child "CONTEXT-R-PORT-REF" k (read_ref rc_AbstractRequiredPortPrototypeRef v) in
  let* d_target_trigger := child "TARGET-TRIGGER-REF" k (read_ref rc_TriggerRef v) in
  Ok (mkRTriggerInAtomicSwcInstanceRef d_context_port d_target_trigger).

(** ** ArVariableInImplementationDataInstanceRef *)

(** Attributes of ArVariableInImplementationDataInstanceRef, element.py:5721-5767 *)
Record ArVariableInImplementationDataInstanceRef := mkArVariableInImplementationDataInstanceRef {
  ArVariableInImplementationDataInstanceRef_port_prototype_ref : option ref;
  ArVariableInImplementationDataInstanceRef_root_variable_data_prototype_ref : option ref;
  ArVariableInImplementationDataInstanceRef_context_data_prototype_refs : list ref;
  ArVariableInImplementationDataInstanceRef_target_data_prototype_ref : option ref }.
(** ArVariableInImplementationDataInstanceRef.is_empty, xml/base.py:17-29 *)
Definition ArVariableInImplementationDataInstanceRef_is_empty (e : ArVariableInImplementationDataInstanceRef) : bool := unset (ArVariableInImplementationDataInstanceRef_port_prototype_ref e) && unset (ArVariableInImplementationDataInstanceRef_root_variable_data_prototype_ref e) && no_items (ArVariableInImplementationDataInstanceRef_context_data_prototype_refs e) && unset (ArVariableInImplementationDataInstanceRef_target_data_prototype_ref e).
(** _write_variable_in_impl_data_instance_ref, writer.py:4030-4055 *)
Definition write_variable_in_impl_data_instance_ref (v : N) (tag : string) (e : ArVariableInImplementationDataInstanceRef) : out :=
  if ArVariableInImplementationDataInstanceRef_is_empty e then empty tag else
  node tag [] (cat [
    if_set (ArVariableInImplementationDataInstanceRef_port_prototype_ref e) (fun a => write_ref "PORT-PROTOTYPE-REF" a);
    if_set (ArVariableInImplementationDataInstanceRef_root_variable_data_prototype_ref e) (fun a => write_ref "ROOT-VARIABLE-DATA-PROTOTYPE-REF" a);
    if_some (ArVariableInImplementationDataInstanceRef_context_data_prototype_refs e) (node "CONTEXT-DATA-PROTOTYPE-REFS" [] (for_each (ArVariableInImplementationDataInstanceRef_context_data_prototype_refs e) (fun a => write_ref "CONTEXT-DATA-PROTOTYPE-REF" a)));
    if_set (ArVariableInImplementationDataInstanceRef_target_data_prototype_ref e) (fun a => write_ref "TARGET-DATA-PROTOTYPE-REF" a) ]).
(** _read_variable_in_impl_data_instance_ref_group, reader.py:4643-4661 *)
Definition read_variable_in_impl_data_instance_ref_group (v : N) (k : list xml) : result (option ref * option ref * (list ref) * option ref) :=
  let* d_port_prototype_ref := child "PORT-PROTOTYPE-REF" k (read_ref rc_PortPrototypeRef v) in
  let* d_root_variable_data_prototype_ref := child "ROOT-VARIABLE-DATA-PROTOTYPE-REF" k (read_ref rc_VariableDataPrototypeRef v) in
  let* d_context_data_prototype_refs := children "CONTEXT-DATA-PROTOTYPE-REFS" "CONTEXT-DATA-PROTOTYPE-REF" k (read_ref rc_AbstractImplementationDataTypeElementRef v) in
  let* d_target_data_prototype_ref := child "TARGET-DATA-PROTOTYPE-REF" k (read_ref rc_AbstractImplementationDataTypeElementRef v) in
  Ok (d_port_prototype_ref, d_root_variable_data_prototype_ref, d_context_data_prototype_refs, d_target_data_prototype_ref).
(** _read_variable_in_impl_data_instance_ref, reader.py:4630-4641 *)
Definition read_variable_in_impl_data_instance_ref (v : N) (x : xml) : result ArVariableInImplementationDataInstanceRef :=
  let k := x_kids x in
  let* (d_port_prototype_ref, d_root_variable_data_prototype_ref, d_context_data_prototype_refs, d_target_data_prototype_ref) := read_variable_in_impl_data_instance_ref_group v k in
  Ok (mkArVariableInImplementationDataInstanceRef d_port_prototype_ref d_root_variable_data_prototype_ref d_context_data_prototype_refs d_target_data_prototype_ref).

(** ** RunnableEntityArgument *)

(** Attributes of RunnableEntityArgument, element.py:6083-6093 *)
Record RunnableEntityArgument := mkRunnableEntityArgument {
  RunnableEntityArgument_symbol : option string }.
(** RunnableEntityArgument.is_empty, xml/base.py:17-29 *)
Definition RunnableEntityArgument_is_empty (e : RunnableEntityArgument) : bool := unset (RunnableEntityArgument_symbol e).
(** _write_runnable_entity_argument, writer.py:4122-4135 *)
Definition write_runnable_entity_argument (v : N) (e : RunnableEntityArgument) : out :=
  if RunnableEntityArgument_is_empty e then empty "RUNNABLE-ENTITY-ARGUMENT" else
  node "RUNNABLE-ENTITY-ARGUMENT" [] (cat [
    if_set (RunnableEntityArgument_symbol e) (fun a => content "SYMBOL" (Ok a)) ]).
(** _read_runnable_entity_argument, reader.py:4778-4789 *)
Definition read_runnable_entity_argument (v : N) (x : xml) : result RunnableEntityArgument :=
  let k := x_kids x in
  let* d_symbol := child_text "SYMBOL" k in
  Ok (mkRunnableEntityArgument d_symbol).

(** ** ExecutableEntityActivationReason *)

(** Attributes of ExecutableEntityActivationReason, element.py:5941-5953 *)
Record ExecutableEntityActivationReason := mkExecutableEntityActivationReason {
  ExecutableEntityActivationReason_name : string;
  ExecutableEntityActivationReason_symbol : option string;
  ExecutableEntityActivationReason_bit_position : option Z }.
(** _write_executable_entity_activation_reason, writer.py:4137-4149 *)
Definition write_executable_entity_activation_reason (v : N) (e : ExecutableEntityActivationReason) : out :=
  node "EXECUTABLE-ENTITY-ACTIVATION-REASON" [] (cat [
    content "SHORT-NAME" (Ok (ExecutableEntityActivationReason_name e));
    write_implementation_props v (ExecutableEntityActivationReason_symbol e);
    if_set (ExecutableEntityActivationReason_bit_position e) (fun a => content "BIT-POSITION" (Ok (zstr a))) ]).
(** _read_executable_entity_activation_reason, reader.py:4745-4760 *)
Definition read_executable_entity_activation_reason (v : N) (x : xml) : result ExecutableEntityActivationReason :=
  let k := x_kids x in
  let* d_name := read_referrable k in
  let* d_symbol := read_implementation_props v k in
  let* d_bit_position := child "BIT-POSITION" k rd_positive in
  let* name := new_referrable d_name in
  Ok (mkExecutableEntityActivationReason name d_symbol d_bit_position).

(** ** ExclusiveAreaRefConditional *)

(** Attributes of ExclusiveAreaRefConditional, element.py:5956-5965 *)
Record ExclusiveAreaRefConditional := mkExclusiveAreaRefConditional {
  ExclusiveAreaRefConditional_exclusive_area : option ref }.
(** ExclusiveAreaRefConditional.is_empty, xml/base.py:17-29 *)
Definition ExclusiveAreaRefConditional_is_empty (e : ExclusiveAreaRefConditional) : bool := unset (ExclusiveAreaRefConditional_exclusive_area e).
(** _write_exclusive_area_ref_conditional, writer.py:4151-4165 *)
Definition write_exclusive_area_ref_conditional (v : N) (e : ExclusiveAreaRefConditional) : out :=
  if ExclusiveAreaRefConditional_is_empty e then empty "EXCLUSIVE-AREA-REF-CONDITIONAL" else
  node "EXCLUSIVE-AREA-REF-CONDITIONAL" [] (cat [
    if_set (ExclusiveAreaRefConditional_exclusive_area e) (fun a => write_ref "EXCLUSIVE-AREA-REF" a) ]).
(** _read_exclusive_area_ref_conditional, reader.py:4762-4776 *)
Definition read_exclusive_area_ref_conditional (v : N) (x : xml) : result ExclusiveAreaRefConditional :=
  let k := x_kids x in
  let* d_exclusive_area := child "EXCLUSIVE-AREA-REF" k (read_ref rc_ExclusiveAreaRef v) in
  Ok (mkExclusiveAreaRefConditional d_exclusive_area).

(** ** AsynchronousServerCallPoint *)

(** Attributes of AsynchronousServerCallPoint, element.py:6133-6146 *)
Record AsynchronousServerCallPoint := mkAsynchronousServerCallPoint {
  AsynchronousServerCallPoint_ident : identifiable;
  AsynchronousServerCallPoint_return_value_provision : option RteApiReturnValueProvision;
  AsynchronousServerCallPoint_operation : option ROperationInAtomicSwcInstanceRef;
  AsynchronousServerCallPoint_timeout : option pynum }.
(** _write_abstract_access_point, writer.py:4167-4172 *)
Definition write_abstract_access_point (v : N) (f_return_value_provision : option RteApiReturnValueProvision) : out :=
  cat [
    if_set f_return_value_provision (fun a => content "RETURN-VALUE-PROVISION" (enum_text em_RteApiReturnValueProvision a)) ].
(** _write_server_call_point, writer.py:4174-4181 *)
Definition write_server_call_point (v : N) (f_operation : option ROperationInAtomicSwcInstanceRef) (f_timeout : option pynum) : out :=
  cat [
    if_set f_operation (fun a => write_r_operation_in_atomic_swc_instance_ref v a);
    if_set f_timeout (fun a => content "TIMEOUT" (format_number a)) ].
(** _write_async_server_call_point, writer.py:4183-4195 *)
Definition write_async_server_call_point (v : N) (e : AsynchronousServerCallPoint) : out :=
  node "ASYNCHRONOUS-SERVER-CALL-POINT" [] (cat [
    write_referrable (AsynchronousServerCallPoint_ident e);
    write_multilanguage_referrable (AsynchronousServerCallPoint_ident e);
    write_identifiable (AsynchronousServerCallPoint_ident e);
    write_abstract_access_point v (AsynchronousServerCallPoint_return_value_provision e);
    write_server_call_point v (AsynchronousServerCallPoint_operation e) (AsynchronousServerCallPoint_timeout e) ]).
(** _read_abstract_access_point, reader.py:4791-4797 *)
Definition read_abstract_access_point (v : N) (k : list xml) : result (option RteApiReturnValueProvision) :=
  let* d_return_value_provision := child "RETURN-VALUE-PROVISION" k (rd_enum em_RteApiReturnValueProvision) in
  Ok d_return_value_provision.
(** _read_server_call_point, reader.py:4799-4809 *)
Definition read_server_call_point (v : N) (k : list xml) : result (option ROperationInAtomicSwcInstanceRef * option pynum) :=
  let* d_operation := child "OPERATION-IREF" k (read_r_operation_in_atomic_swc_instance_ref v) in
  let* d_timeout := child "TIMEOUT" k rd_number in
  Ok (d_operation, d_timeout).
(** _read_async_server_call_point, reader.py:4811-4824 *)
Definition read_async_server_call_point (v : N) (x : xml) : result AsynchronousServerCallPoint :=
  let k := x_kids x in
  let* d_ident := read_ident (x_attrs x) k in
  let* d_return_value_provision := read_abstract_access_point v k in
  let* (d_operation, d_timeout) := read_server_call_point v k in
  let* ident := new_identifiable d_ident in
  Ok (mkAsynchronousServerCallPoint ident d_return_value_provision d_operation (option_map as_float d_timeout)).

(** ** SynchronousServerCallPoint *)

(** Attributes of SynchronousServerCallPoint, element.py:6174-6190 *)
Record SynchronousServerCallPoint := mkSynchronousServerCallPoint {
  SynchronousServerCallPoint_ident : identifiable;
  SynchronousServerCallPoint_return_value_provision : option RteApiReturnValueProvision;
  SynchronousServerCallPoint_operation : option ROperationInAtomicSwcInstanceRef;
  SynchronousServerCallPoint_timeout : option pynum;
  SynchronousServerCallPoint_called_from_within_exclusive_area : option ref }.
(** _write_sync_server_call_point, writer.py:4197-4212 *)
Definition write_sync_server_call_point (v : N) (e : SynchronousServerCallPoint) : out :=
  node "SYNCHRONOUS-SERVER-CALL-POINT" [] (cat [
    write_referrable (SynchronousServerCallPoint_ident e);
    write_multilanguage_referrable (SynchronousServerCallPoint_ident e);
    write_identifiable (SynchronousServerCallPoint_ident e);
    write_abstract_access_point v (SynchronousServerCallPoint_return_value_provision e);
    write_server_call_point v (SynchronousServerCallPoint_operation e) (SynchronousServerCallPoint_timeout e);
    if_set (SynchronousServerCallPoint_called_from_within_exclusive_area e) (fun a => write_ref "CALLED-FROM-WITHIN-EXCLUSIVE-AREA-REF" a) ]).
(** _read_sync_server_call_point, reader.py:4826-4842 *)
Definition read_sync_server_call_point (v : N) (x : xml) : result SynchronousServerCallPoint :=
  let k := x_kids x in
  let* d_ident := read_ident (x_attrs x) k in
  let* d_return_value_provision := read_abstract_access_point v k in
  let* (d_operation, d_timeout) := read_server_call_point v k in
  let* d_called_from_within_exclusive_area := child "CALLED-FROM-WITHIN-EXCLUSIVE-AREA-REF" k (read_ref rc_ExclusiveAreaNestingOrderRef v) in
  let* ident := new_identifiable d_ident in
  Ok (mkSynchronousServerCallPoint ident d_return_value_provision d_operation (option_map as_float d_timeout) d_called_from_within_exclusive_area).

(** ** AsynchronousServerCallResultPoint *)

(** Attributes of AsynchronousServerCallResultPoint, element.py:6149-6171 *)
Record AsynchronousServerCallResultPoint := mkAsynchronousServerCallResultPoint {
  AsynchronousServerCallResultPoint_ident : identifiable;
  AsynchronousServerCallResultPoint_return_value_provision : option RteApiReturnValueProvision;
  AsynchronousServerCallResultPoint_async_server_call_point : option ref }.
(** _write_async_server_call_result_point_group, writer.py:4228-4233 *)
Definition write_async_server_call_result_point_group (v : N) (f_async_server_call_point : option ref) : out :=
  cat [
    if_set f_async_server_call_point (fun a => write_ref "ASYNCHRONOUS-SERVER-CALL-POINT-REF" a) ].
(** _write_async_server_call_result_point, writer.py:4214-4226 *)
Definition write_async_server_call_result_point (v : N) (e : AsynchronousServerCallResultPoint) : out :=
  node "ASYNCHRONOUS-SERVER-CALL-RESULT-POINT" [] (cat [
    write_referrable (AsynchronousServerCallResultPoint_ident e);
    write_multilanguage_referrable (AsynchronousServerCallResultPoint_ident e);
    write_identifiable (AsynchronousServerCallResultPoint_ident e);
    write_abstract_access_point v (AsynchronousServerCallResultPoint_return_value_provision e);
    write_async_server_call_result_point_group v (AsynchronousServerCallResultPoint_async_server_call_point e) ]).
(** _read_async_server_call_result_point_group, reader.py:4861-4867 *)
Definition read_async_server_call_result_point_group (v : N) (k : list xml) : result (option ref) :=
  let* d_async_server_call_point := child "ASYNCHRONOUS-SERVER-CALL-POINT-REF" k (read_ref rc_AsynchronousServerCallPointRef v) in
  Ok d_async_server_call_point.
(** _read_async_server_call_result_point, reader.py:4844-4859 *)
Definition read_async_server_call_result_point (v : N) (x : xml) : result AsynchronousServerCallResultPoint :=
  let k := x_kids x in
  let* d_ident := read_ident (x_attrs x) k in
  let* d_return_value_provision := read_abstract_access_point v k in
  let* d_async_server_call_point := read_async_server_call_result_point_group v k in
  let* ident := new_identifiable d_ident in
  Ok (mkAsynchronousServerCallResultPoint ident d_return_value_provision d_async_server_call_point).

(** ** ExternalTriggeringPointIdent *)

(** Attributes of ExternalTriggeringPointIdent, element.py:6193-6198 *)
Record ExternalTriggeringPointIdent := mkExternalTriggeringPointIdent {
  ExternalTriggeringPointIdent_ident : identifiable;
  ExternalTriggeringPointIdent_return_value_provision : option RteApiReturnValueProvision }.
(** _write_external_triggering_point_ident, writer.py:4235-4246 *)
Definition write_external_triggering_point_ident (v : N) (e : ExternalTriggeringPointIdent) : out :=
  node "IDENT" [] (cat [
    write_referrable (ExternalTriggeringPointIdent_ident e);
    write_multilanguage_referrable (ExternalTriggeringPointIdent_ident e);
    write_identifiable (ExternalTriggeringPointIdent_ident e);
    write_abstract_access_point v (ExternalTriggeringPointIdent_return_value_provision e) ]).
(** _read_external_triggering_point_ident, reader.py:4869-4882 *)
Definition read_external_triggering_point_ident (v : N) (x : xml) : result ExternalTriggeringPointIdent :=
  let k := x_kids x in
  let* d_ident := read_ident (x_attrs x) k in
  let* d_return_value_provision := read_abstract_access_point v k in
  let* ident := new_identifiable d_ident in
  Ok (mkExternalTriggeringPointIdent ident d_return_value_provision).

(** ** ExternalTriggeringPoint *)

(** Attributes of ExternalTriggeringPoint, element.py:6201-6219 *)
Record ExternalTriggeringPoint := mkExternalTriggeringPoint {
  ExternalTriggeringPoint_ident : option ExternalTriggeringPointIdent;
  ExternalTriggeringPoint_trigger : option PTriggerInAtomicSwcTypeInstanceRef }.
(** ExternalTriggeringPoint.is_empty, xml/base.py:17-29 *)
Definition ExternalTriggeringPoint_is_empty (e : ExternalTriggeringPoint) : bool := unset (ExternalTriggeringPoint_ident e) && unset (ExternalTriggeringPoint_trigger e).
(** _write_external_triggering_point, writer.py:4248-4263 *)
Definition write_external_triggering_point (v : N) (e : ExternalTriggeringPoint) : out :=
  if ExternalTriggeringPoint_is_empty e then empty "EXTERNAL-TRIGGERING-POINT" else
  node "EXTERNAL-TRIGGERING-POINT" [] (cat [
    if_set (ExternalTriggeringPoint_ident e) (fun a => write_external_triggering_point_ident v a);
    if_set (ExternalTriggeringPoint_trigger e) (fun a => write_p_trigger_in_atomic_swc_instance_ref v "TRIGGER-IREF" a) ]).
(** _read_external_triggering_point, reader.py:4884-4899 *)
Definition read_external_triggering_point (v : N) (x : xml) : result ExternalTriggeringPoint :=
  let k := x_kids x in
  let* d_ident := child "IDENT" k (read_external_triggering_point_ident v) in
  let* d_trigger := child "TRIGGER-IREF" k (read_p_trigger_in_atomic_swc_instance_ref v) in
  Ok (mkExternalTriggeringPoint d_ident d_trigger).

(** ** InternalTriggeringPoint *)

(** Attributes of InternalTriggeringPoint, element.py:6222-6235 *)
Record InternalTriggeringPoint := mkInternalTriggeringPoint {
  InternalTriggeringPoint_ident : identifiable;
  InternalTriggeringPoint_return_value_provision : option RteApiReturnValueProvision;
  InternalTriggeringPoint_sw_impl_policy : option SwImplPolicy }.
(** _write_internal_triggering_point, writer.py:4265-4278 *)
Definition write_internal_triggering_point (v : N) (e : InternalTriggeringPoint) : out :=
  node "INTERNAL-TRIGGERING-POINT" [] (cat [
    write_referrable (InternalTriggeringPoint_ident e);
    write_multilanguage_referrable (InternalTriggeringPoint_ident e);
    write_identifiable (InternalTriggeringPoint_ident e);
    write_abstract_access_point v (InternalTriggeringPoint_return_value_provision e);
    if_set (InternalTriggeringPoint_sw_impl_policy e) (fun a => content "SW-IMPL-POLICY" (enum_text em_SwImplPolicy a)) ]).
(** _read_internal_triggering_point, reader.py:4901-4917 *)
Definition read_internal_triggering_point (v : N) (x : xml) : result InternalTriggeringPoint :=
  let k := x_kids x in
  let* d_ident := read_ident (x_attrs x) k in
  let* d_return_value_provision := read_abstract_access_point v k in
  let* d_sw_impl_policy := child "SW-IMPL-POLICY" k (rd_enum em_SwImplPolicy) in
  let* ident := new_identifiable d_ident in
  Ok (mkInternalTriggeringPoint ident d_return_value_provision d_sw_impl_policy).

(** ** ModeAccessPointIdent *)

(** Attributes of ModeAccessPointIdent, element.py:6238-6252 *)
Record ModeAccessPointIdent := mkModeAccessPointIdent {
  ModeAccessPointIdent_ident : identifiable;
  ModeAccessPointIdent_return_value_provision : option RteApiReturnValueProvision }.
(** _write_mode_access_point_ident, writer.py:4280-4291 *)
Definition write_mode_access_point_ident (v : N) (e : ModeAccessPointIdent) : out :=
  node "IDENT" [] (cat [
    write_referrable (ModeAccessPointIdent_ident e);
    write_multilanguage_referrable (ModeAccessPointIdent_ident e);
    write_identifiable (ModeAccessPointIdent_ident e);
    write_abstract_access_point v (ModeAccessPointIdent_return_value_provision e) ]).
(** _read_mode_access_point_ident, reader.py:4919-4933 *)
Definition read_mode_access_point_ident (v : N) (x : xml) : result ModeAccessPointIdent :=
  let k := x_kids x in
  let* d_ident := read_ident (x_attrs x) k in
  let* d_return_value_provision := read_abstract_access_point v k in
  let* d_async_server_call_point := read_async_server_call_result_point_group v k in
  let* _ := unexpected ["ASYNCHRONOUS-SERVER-CALL-POINT-REF"] k in
  let* ident := new_identifiable d_ident in
  Ok (mkModeAccessPointIdent ident d_return_value_provision).

(** ** ModeSwitchPoint *)

(** Attributes of ModeSwitchPoint, element.py:6283-6306 *)
Record ModeSwitchPoint := mkModeSwitchPoint {
  ModeSwitchPoint_ident : identifiable;
  ModeSwitchPoint_return_value_provision : option RteApiReturnValueProvision;
  ModeSwitchPoint_mode_group : option PModeGroupInAtomicSwcInstanceRef }.
(** _write_mode_switch_point, writer.py:4318-4331 *)
Definition write_mode_switch_point (v : N) (e : ModeSwitchPoint) : out :=
  node "MODE-SWITCH-POINT" [] (cat [
    write_referrable (ModeSwitchPoint_ident e);
    write_multilanguage_referrable (ModeSwitchPoint_ident e);
    write_identifiable (ModeSwitchPoint_ident e);
    write_abstract_access_point v (ModeSwitchPoint_return_value_provision e);
    if_set (ModeSwitchPoint_mode_group e) (fun a => write_p_mode_group_in_atomic_swc_instance_ref v "MODE-GROUP-IREF" a) ]).
(** _read_mode_switch_point, reader.py:4956-4972 *)
Definition read_mode_switch_point (v : N) (x : xml) : result ModeSwitchPoint :=
  let k := x_kids x in
  let* d_ident := read_ident (x_attrs x) k in
  let* d_return_value_provision := read_abstract_access_point v k in
  let* d_mode_group := child "MODE-GROUP-IREF" k (read_p_mode_group_in_atomic_swc_instance_ref v) in
  let* ident := new_identifiable d_ident in
  Ok (mkModeSwitchPoint ident d_return_value_provision d_mode_group).

(** ** ParameterInAtomicSwcTypeInstanceRef *)

(** Attributes of ParameterInAtomicSwcTypeInstanceRef, element.py:6309-6335 *)
Record ParameterInAtomicSwcTypeInstanceRef := mkParameterInAtomicSwcTypeInstanceRef {
  ParameterInAtomicSwcTypeInstanceRef_port_prototype : option ref;
  ParameterInAtomicSwcTypeInstanceRef_root_parameter_data_prototype : option ref;
  ParameterInAtomicSwcTypeInstanceRef_context_data_prototype : option ref;
  ParameterInAtomicSwcTypeInstanceRef_target_data_prototype : option ref }.
(** ParameterInAtomicSwcTypeInstanceRef.is_empty, xml/base.py:17-29 *)
Definition ParameterInAtomicSwcTypeInstanceRef_is_empty (e : ParameterInAtomicSwcTypeInstanceRef) : bool := unset (ParameterInAtomicSwcTypeInstanceRef_port_prototype e) && unset (ParameterInAtomicSwcTypeInstanceRef_root_parameter_data_prototype e) && unset (ParameterInAtomicSwcTypeInstanceRef_context_data_prototype e) && unset (ParameterInAtomicSwcTypeInstanceRef_target_data_prototype e).
(** _write_parameter_in_atomic_swc_type_instance_ref, writer.py:4333-4355 *)
Definition write_parameter_in_atomic_swc_type_instance_ref (v : N) (e : ParameterInAtomicSwcTypeInstanceRef) : out :=
  if ParameterInAtomicSwcTypeInstanceRef_is_empty e then empty "AUTOSAR-PARAMETER-IREF" else
  node "AUTOSAR-PARAMETER-IREF" [] (cat [
    if_set (ParameterInAtomicSwcTypeInstanceRef_port_prototype e) (fun a => write_ref "PORT-PROTOTYPE-REF" a);
    if_set (ParameterInAtomicSwcTypeInstanceRef_root_parameter_data_prototype e) (fun a => write_ref "ROOT-PARAMETER-DATA-PROTOTYPE-REF" a);
    if_set (ParameterInAtomicSwcTypeInstanceRef_context_data_prototype e) (fun a => write_ref "CONTEXT-DATA-PROTOTYPE-REF" a);
    if_set (ParameterInAtomicSwcTypeInstanceRef_target_data_prototype e) (fun a => write_ref "TARGET-DATA-PROTOTYPE-REF" a) ]).
(** _read_parameter_in_atomic_swc_type_instance_ref, reader.py:4974-4998 *)
Definition read_parameter_in_atomic_swc_type_instance_ref (v : N) (x : xml) : result ParameterInAtomicSwcTypeInstanceRef :=
  let k := x_kids x in
  let* d_port_prototype := child "PORT-PROTOTYPE-REF" k (read_ref rc_PortPrototypeRef v) in
  let* d_root_parameter_data_prototype := child "ROOT-PARAMETER-DATA-PROTOTYPE-REF" k (read_ref rc_DataPrototypeRef v) in
  let* d_context_data_prototype := child "CONTEXT-DATA-PROTOTYPE-REF" k (read_ref rc_ApplicationCompositeElementDataPrototypeRef v) in
  let* d_target_data_prototype := child "TARGET-DATA-PROTOTYPE-REF" k (read_ref rc_DataPrototypeRef v) in
  Ok (mkParameterInAtomicSwcTypeInstanceRef d_port_prototype d_root_parameter_data_prototype d_context_data_prototype d_target_data_prototype).

(** ** AutosarParameterRef *)

(** Attributes of AutosarParameterRef, element.py:6338-6354 *)
Record AutosarParameterRef := mkAutosarParameterRef {
  AutosarParameterRef_autosar_parameter : option ParameterInAtomicSwcTypeInstanceRef;
  AutosarParameterRef_local_parameter : option ref }.
(** AutosarParameterRef.is_empty, xml/base.py:17-29 *)
Definition AutosarParameterRef_is_empty (e : AutosarParameterRef) : bool := unset (AutosarParameterRef_autosar_parameter e) && unset (AutosarParameterRef_local_parameter e).
(** _write_autosar_parameter_ref, writer.py:4357-4371 *)
Definition write_autosar_parameter_ref (v : N) (tag : string) (e : AutosarParameterRef) : out :=
  if AutosarParameterRef_is_empty e then empty tag else
  node tag [] (cat [
    if_set (AutosarParameterRef_autosar_parameter e) (fun a => write_parameter_in_atomic_swc_type_instance_ref v a);
    if_set (AutosarParameterRef_local_parameter e) (fun a => write_ref "LOCAL-PARAMETER-REF" a) ]).
(** _read_autosar_parameter_ref, reader.py:5000-5014 *)
Definition read_autosar_parameter_ref (v : N) (x : xml) : result AutosarParameterRef :=
  let k := x_kids x in
  let* d_autosar_parameter := child "AUTOSAR-PARAMETER-IREF" k (read_parameter_in_atomic_swc_type_instance_ref v) in
  let* d_local_parameter := child "LOCAL-PARAMETER-REF" k (read_ref rc_DataPrototypeRef v) in
  Ok (mkAutosarParameterRef d_autosar_parameter d_local_parameter).

(** ** WaitPoint *)

(** Attributes of WaitPoint, element.py:6386-6404 *)
Record WaitPoint := mkWaitPoint {
  WaitPoint_ident : identifiable;
  WaitPoint_timeout : option pynum;
  WaitPoint_trigger : option ref }.
(** _write_wait_point_group, writer.py:4409-4416 *)
Definition write_wait_point_group (v : N) (f_timeout : option pynum) (f_trigger : option ref) : out :=
  cat [
    if_set f_timeout (fun a => content "TIMEOUT" (format_number a));
    if_set f_trigger (fun a => write_ref "TRIGGER-REF" a) ].
(** _write_wait_point, writer.py:4396-4407 *)
Definition write_wait_point (v : N) (e : WaitPoint) : out :=
  node "WAIT-POINT" [] (cat [
    write_referrable (WaitPoint_ident e);
    write_multilanguage_referrable (WaitPoint_ident e);
    write_identifiable (WaitPoint_ident e);
    write_wait_point_group v (WaitPoint_timeout e) (WaitPoint_trigger e) ]).
(** _read_wait_point_group, reader.py:5057-5066 *)
Definition read_wait_point_group (v : N) (k : list xml) : result (option pynum * option ref) :=
  let* d_timeout := child "TIMEOUT" k rd_number in
  let* d_trigger := child "TRIGGER-REF" k (read_ref rc_RteEventRef v) in
  Ok (d_timeout, d_trigger).
(** _read_wait_point, reader.py:5043-5055 *)
Definition read_wait_point (v : N) (x : xml) : result WaitPoint :=
  let k := x_kids x in
  let* d_ident := read_ident (x_attrs x) k in
  let* (d_timeout, d_trigger) := read_wait_point_group v k in
  let* ident := new_identifiable d_ident in
  Ok (mkWaitPoint ident (option_map as_float d_timeout) d_trigger).

(** ** AsynchronousServerCallReturnsEvent *)

(** Attributes of AsynchronousServerCallReturnsEvent, element.py:7157-7181 *)
Record AsynchronousServerCallReturnsEvent := mkAsynchronousServerCallReturnsEvent {
  AsynchronousServerCallReturnsEvent_ident : identifiable;
  AsynchronousServerCallReturnsEvent_disabled_modes : list RModeInAtomicSwcInstanceRef;
  AsynchronousServerCallReturnsEvent_start_on_event : option ref;
  AsynchronousServerCallReturnsEvent_event_source : option ref }.
(** _write_rte_event_group, writer.py:4576-4586 *)
Definition write_rte_event_group (v : N) (f_disabled_modes : list RModeInAtomicSwcInstanceRef) (f_start_on_event : option ref) : out :=
  cat [
    if_some f_disabled_modes (node "DISABLED-MODE-IREFS" [] (for_each f_disabled_modes (fun a => write_r_mode_in_atomic_swc_instance_ref v "DISABLED-MODE-IREF" a)));
    if_set f_start_on_event (fun a => write_ref "START-ON-EVENT-REF" a) ].
(** _write_async_server_call_returns_event, writer.py:4588-4601 *)
Definition write_async_server_call_returns_event (v : N) (e : AsynchronousServerCallReturnsEvent) : out :=
  node "ASYNCHRONOUS-SERVER-CALL-RETURNS-EVENT" [] (cat [
    write_referrable (AsynchronousServerCallReturnsEvent_ident e);
    write_multilanguage_referrable (AsynchronousServerCallReturnsEvent_ident e);
    write_identifiable (AsynchronousServerCallReturnsEvent_ident e);
    write_rte_event_group v (AsynchronousServerCallReturnsEvent_disabled_modes e) (AsynchronousServerCallReturnsEvent_start_on_event e);
    if_set (AsynchronousServerCallReturnsEvent_event_source e) (fun a => write_ref "EVENT-SOURCE-REF" a) ]).
(** _read_rte_event_group, reader.py:5254-5267 *)
Definition read_rte_event_group (v : N) (k : list xml) : result ((list RModeInAtomicSwcInstanceRef) * option ref) :=
  let* d_disabled_modes := children "DISABLED-MODE-IREFS" "DISABLED-MODE-IREF" k (read_r_mode_in_atomic_swc_instance_ref v) in
  let* d_start_on_event := child "START-ON-EVENT-REF" k (read_ref rc_RunnableEntityRef v) in
  Ok (d_disabled_modes, d_start_on_event).
(** _read_async_server_call_returns_event, reader.py:5269-5286 *)
Definition read_async_server_call_returns_event (v : N) (x : xml) : result AsynchronousServerCallReturnsEvent :=
  let k := x_kids x in
  let* d_ident := read_ident (x_attrs x) k in
  let* (d_disabled_modes, d_start_on_event) := read_rte_event_group v k in
  let* d_event_source := child "EVENT-SOURCE-REF" k (read_ref rc_AsynchronousServerCallResultPointRef v) in
  let* ident := new_identifiable d_ident in
  Ok (mkAsynchronousServerCallReturnsEvent ident d_disabled_modes d_start_on_event d_event_source).

(** ** BackgroundEvent *)

(** Attributes of BackgroundEvent, element.py:7184-7199 *)
Record BackgroundEvent := mkBackgroundEvent {
  BackgroundEvent_ident : identifiable;
  BackgroundEvent_disabled_modes : list RModeInAtomicSwcInstanceRef;
  BackgroundEvent_start_on_event : option ref }.
(** _write_background_event, writer.py:4603-4614 *)
Definition write_background_event (v : N) (e : BackgroundEvent) : out :=
  node "BACKGROUND-EVENT" [] (cat [
    write_referrable (BackgroundEvent_ident e);
    write_multilanguage_referrable (BackgroundEvent_ident e);
    write_identifiable (BackgroundEvent_ident e);
    write_rte_event_group v (BackgroundEvent_disabled_modes e) (BackgroundEvent_start_on_event e) ]).
(** _read_background_event, reader.py:5288-5302 *)
Definition read_background_event (v : N) (x : xml) : result BackgroundEvent :=
  let k := x_kids x in
  let* d_ident := read_ident (x_attrs x) k in
  let* (d_disabled_modes, d_start_on_event) := read_rte_event_group v k in
  let* ident := new_identifiable d_ident in
  Ok (mkBackgroundEvent ident d_disabled_modes d_start_on_event).

(** ** DataReceiveErrorEvent *)

(** Attributes of DataReceiveErrorEvent, element.py:7202-7242 *)
Record DataReceiveErrorEvent := mkDataReceiveErrorEvent {
  DataReceiveErrorEvent_ident : identifiable;
  DataReceiveErrorEvent_disabled_modes : list RModeInAtomicSwcInstanceRef;
  DataReceiveErrorEvent_start_on_event : option ref;
  DataReceiveErrorEvent_data : option RVariableInAtomicSwcInstanceRef }.
(** _write_data_receive_error_event, writer.py:4616-4629 *)
Definition write_data_receive_error_event (v : N) (e : DataReceiveErrorEvent) : out :=
  node "DATA-RECEIVE-ERROR-EVENT" [] (cat [
    write_referrable (DataReceiveErrorEvent_ident e);
    write_multilanguage_referrable (DataReceiveErrorEvent_ident e);
    write_identifiable (DataReceiveErrorEvent_ident e);
    write_rte_event_group v (DataReceiveErrorEvent_disabled_modes e) (DataReceiveErrorEvent_start_on_event e);
    if_set (DataReceiveErrorEvent_data e) (fun a => write_r_variable_in_atomic_swc_instance_ref v a) ]).
(** _read_data_receive_error_event, reader.py:5304-5321 *)
Definition read_data_receive_error_event (v : N) (x : xml) : result DataReceiveErrorEvent :=
  let k := x_kids x in
  let* d_ident := read_ident (x_attrs x) k in
  let* (d_disabled_modes, d_start_on_event) := read_rte_event_group v k in
  let* d_data := child "DATA-IREF" k (read_r_variable_in_atomic_swc_instance_ref v) in
  let* ident := new_identifiable d_ident in
  Ok (mkDataReceiveErrorEvent ident d_disabled_modes d_start_on_event d_data).

(** ** DataReceivedEvent *)

(** Attributes of DataReceivedEvent, element.py:7245-7285 *)
Record DataReceivedEvent := mkDataReceivedEvent {
  DataReceivedEvent_ident : identifiable;
  DataReceivedEvent_disabled_modes : list RModeInAtomicSwcInstanceRef;
  DataReceivedEvent_start_on_event : option ref;
  DataReceivedEvent_data : option RVariableInAtomicSwcInstanceRef }.
(** _write_data_received_event, writer.py:4631-4644 *)
Definition write_data_received_event (v : N) (e : DataReceivedEvent) : out :=
  node "DATA-RECEIVED-EVENT" [] (cat [
    write_referrable (DataReceivedEvent_ident e);
    write_multilanguage_referrable (DataReceivedEvent_ident e);
    write_identifiable (DataReceivedEvent_ident e);
    write_rte_event_group v (DataReceivedEvent_disabled_modes e) (DataReceivedEvent_start_on_event e);
    if_set (DataReceivedEvent_data e) (fun a => write_r_variable_in_atomic_swc_instance_ref v a) ]).
(** _read_data_received_event, reader.py:5323-5340 *)
Definition read_data_received_event (v : N) (x : xml) : result DataReceivedEvent :=
  let k := x_kids x in
  let* d_ident := read_ident (x_attrs x) k in
  let* (d_disabled_modes, d_start_on_event) := read_rte_event_group v k in
  let* d_data := child "DATA-IREF" k (read_r_variable_in_atomic_swc_instance_ref v) in
  let* ident := new_identifiable d_ident in
  Ok (mkDataReceivedEvent ident d_disabled_modes d_start_on_event d_data).

(** ** DataSendCompletedEvent *)

(** Attributes of DataSendCompletedEvent, element.py:7288-7312 *)
Record DataSendCompletedEvent := mkDataSendCompletedEvent {
  DataSendCompletedEvent_ident : identifiable;
  DataSendCompletedEvent_disabled_modes : list RModeInAtomicSwcInstanceRef;
  DataSendCompletedEvent_start_on_event : option ref;
  DataSendCompletedEvent_event_source : option ref }.
(** _write_data_send_completed_event, writer.py:4646-4659 *)
Definition write_data_send_completed_event (v : N) (e : DataSendCompletedEvent) : out :=
  node "DATA-SEND-COMPLETED-EVENT" [] (cat [
    write_referrable (DataSendCompletedEvent_ident e);
    write_multilanguage_referrable (DataSendCompletedEvent_ident e);
    write_identifiable (DataSendCompletedEvent_ident e);
    write_rte_event_group v (DataSendCompletedEvent_disabled_modes e) (DataSendCompletedEvent_start_on_event e);
    if_set (DataSendCompletedEvent_event_source e) (fun a => write_ref "EVENT-SOURCE-REF" a) ]).
(** _read_data_send_completed_event, reader.py:5342-5359 *)
Definition read_data_send_completed_event (v : N) (x : xml) : result DataSendCompletedEvent :=
  let k := x_kids x in
  let* d_ident := read_ident (x_attrs x) k in
  let* (d_disabled_modes, d_start_on_event) := read_rte_event_group v k in
  let* d_event_source := child "EVENT-SOURCE-REF" k (read_ref rc_VariableAccessRef v) in
  let* ident := new_identifiable d_ident in
  Ok (mkDataSendCompletedEvent ident d_disabled_modes d_start_on_event d_event_source).

(** ** DataWriteCompletedEvent *)

(** Attributes of DataWriteCompletedEvent, element.py:7315-7339 *)
Record DataWriteCompletedEvent := mkDataWriteCompletedEvent {
  DataWriteCompletedEvent_ident : identifiable;
  DataWriteCompletedEvent_disabled_modes : list RModeInAtomicSwcInstanceRef;
  DataWriteCompletedEvent_start_on_event : option ref;
  DataWriteCompletedEvent_event_source : option ref }.
(** _write_data_write_completed_event, writer.py:4661-4674 *)
Definition write_data_write_completed_event (v : N) (e : DataWriteCompletedEvent) : out :=
  node "DATA-WRITE-COMPLETED-EVENT" [] (cat [
    write_referrable (DataWriteCompletedEvent_ident e);
    write_multilanguage_referrable (DataWriteCompletedEvent_ident e);
    write_identifiable (DataWriteCompletedEvent_ident e);
    write_rte_event_group v (DataWriteCompletedEvent_disabled_modes e) (DataWriteCompletedEvent_start_on_event e);
    if_set (DataWriteCompletedEvent_event_source e) (fun a => write_ref "EVENT-SOURCE-REF" a) ]).
(** _read_data_write_completed_event, reader.py:5361-5378 *)
Definition read_data_write_completed_event (v : N) (x : xml) : result DataWriteCompletedEvent :=
  let k := x_kids x in
  let* d_ident := read_ident (x_attrs x) k in
  let* (d_disabled_modes, d_start_on_event) := read_rte_event_group v k in
  let* d_event_source := child "EVENT-SOURCE-REF" k (read_ref rc_VariableAccessRef v) in
  let* ident := new_identifiable d_ident in
  Ok (mkDataWriteCompletedEvent ident d_disabled_modes d_start_on_event d_event_source).

(** ** ExternalTriggerOccurredEvent *)

(** Attributes of ExternalTriggerOccurredEvent, element.py:7342-7379 *)
Record ExternalTriggerOccurredEvent := mkExternalTriggerOccurredEvent {
  ExternalTriggerOccurredEvent_ident : identifiable;
  ExternalTriggerOccurredEvent_disabled_modes : list RModeInAtomicSwcInstanceRef;
  ExternalTriggerOccurredEvent_start_on_event : option ref;
  ExternalTriggerOccurredEvent_trigger : option RTriggerInAtomicSwcInstanceRef }.
(** _write_external_trigger_occured_event, writer.py:4676-4689 *)
Definition write_external_trigger_occured_event (v : N) (e : ExternalTriggerOccurredEvent) : out :=
  node "EXTERNAL-TRIGGER-OCCURRED-EVENT" [] (cat [
    write_referrable (ExternalTriggerOccurredEvent_ident e);
    write_multilanguage_referrable (ExternalTriggerOccurredEvent_ident e);
    write_identifiable (ExternalTriggerOccurredEvent_ident e);
    write_rte_event_group v (ExternalTriggerOccurredEvent_disabled_modes e) (ExternalTriggerOccurredEvent_start_on_event e);
    if_set (ExternalTriggerOccurredEvent_trigger e) (fun a => write_r_trigger_in_atomic_swc_instance_ref v "TRIGGER-IREF" a) ]).
(** _read_external_trigger_occured_event, reader.py:5380-5397 *)
Definition read_external_trigger_occured_event (v : N) (x : xml) : result ExternalTriggerOccurredEvent :=
  let k := x_kids x in
  let* d_ident := read_ident (x_attrs x) k in
  let* (d_disabled_modes, d_start_on_event) := read_rte_event_group v k in
  let* d_trigger := child "TRIGGER-IREF" k (read_r_trigger_in_atomic_swc_instance_ref v) in
  let* ident := new_identifiable d_ident in
  Ok (mkExternalTriggerOccurredEvent ident d_disabled_modes d_start_on_event d_trigger).

(** ** InitEvent *)

(** Attributes of InitEvent, element.py:7382-7397 *)
Record InitEvent := mkInitEvent {
  InitEvent_ident : identifiable;
  InitEvent_disabled_modes : list RModeInAtomicSwcInstanceRef;
  InitEvent_start_on_event : option ref }.
(** _write_init_event, writer.py:4691-4702 *)
Definition write_init_event (v : N) (e : InitEvent) : out :=
  node "INIT-EVENT" [] (cat [
    write_referrable (InitEvent_ident e);
    write_multilanguage_referrable (InitEvent_ident e);
    write_identifiable (InitEvent_ident e);
    write_rte_event_group v (InitEvent_disabled_modes e) (InitEvent_start_on_event e) ]).
(** _read_init_event, reader.py:5399-5413 *)
Definition read_init_event (v : N) (x : xml) : result InitEvent :=
  let k := x_kids x in
  let* d_ident := read_ident (x_attrs x) k in
  let* (d_disabled_modes, d_start_on_event) := read_rte_event_group v k in
  let* ident := new_identifiable d_ident in
  Ok (mkInitEvent ident d_disabled_modes d_start_on_event).

(** ** InternalTriggerOccurredEvent *)

(** Attributes of InternalTriggerOccurredEvent, element.py:7400-7424 *)
Record InternalTriggerOccurredEvent := mkInternalTriggerOccurredEvent {
  InternalTriggerOccurredEvent_ident : identifiable;
  InternalTriggerOccurredEvent_disabled_modes : list RModeInAtomicSwcInstanceRef;
  InternalTriggerOccurredEvent_start_on_event : option ref;
  InternalTriggerOccurredEvent_event_source : option ref }.
(** _write_internal_trigger_occured_event, writer.py:4704-4717 *)
Definition write_internal_trigger_occured_event (v : N) (e : InternalTriggerOccurredEvent) : out :=
  node "INTERNAL-TRIGGER-OCCURRED-EVENT" [] (cat [
    write_referrable (InternalTriggerOccurredEvent_ident e);
    write_multilanguage_referrable (InternalTriggerOccurredEvent_ident e);
    write_identifiable (InternalTriggerOccurredEvent_ident e);
    write_rte_event_group v (InternalTriggerOccurredEvent_disabled_modes e) (InternalTriggerOccurredEvent_start_on_event e);
    if_set (InternalTriggerOccurredEvent_event_source e) (fun a => write_ref "EVENT-SOURCE-REF" a) ]).
(** _read_internal_trigger_occured_event, reader.py:5415-5432 *)
Definition read_internal_trigger_occured_event (v : N) (x : xml) : result InternalTriggerOccurredEvent :=
  let k := x_kids x in
  let* d_ident := read_ident (x_attrs x) k in
  let* (d_disabled_modes, d_start_on_event) := read_rte_event_group v k in
  let* d_event_source := child "EVENT-SOURCE-REF" k (read_ref rc_InternalTriggeringPointRef v) in
  let* ident := new_identifiable d_ident in
  Ok (mkInternalTriggerOccurredEvent ident d_disabled_modes d_start_on_event d_event_source).

(** ** ModeSwitchedAckEvent *)

(** Attributes of ModeSwitchedAckEvent, element.py:7427-7451 *)
Record ModeSwitchedAckEvent := mkModeSwitchedAckEvent {
  ModeSwitchedAckEvent_ident : identifiable;
  ModeSwitchedAckEvent_disabled_modes : list RModeInAtomicSwcInstanceRef;
  ModeSwitchedAckEvent_start_on_event : option ref;
  ModeSwitchedAckEvent_event_source : option ref }.
(** _write_mode_switched_ack_event, writer.py:4719-4732 *)
Definition write_mode_switched_ack_event (v : N) (e : ModeSwitchedAckEvent) : out :=
  node "MODE-SWITCHED-ACK-EVENT" [] (cat [
    write_referrable (ModeSwitchedAckEvent_ident e);
    write_multilanguage_referrable (ModeSwitchedAckEvent_ident e);
    write_identifiable (ModeSwitchedAckEvent_ident e);
    write_rte_event_group v (ModeSwitchedAckEvent_disabled_modes e) (ModeSwitchedAckEvent_start_on_event e);
    if_set (ModeSwitchedAckEvent_event_source e) (fun a => write_ref "EVENT-SOURCE-REF" a) ]).
(** _read_mode_switched_ack_event, reader.py:5434-5451 *)
Definition read_mode_switched_ack_event (v : N) (x : xml) : result ModeSwitchedAckEvent :=
  let k := x_kids x in
  let* d_ident := read_ident (x_attrs x) k in
  let* (d_disabled_modes, d_start_on_event) := read_rte_event_group v k in
  let* d_event_source := child "EVENT-SOURCE-REF" k (read_ref rc_ModeSwitchPointRef v) in
  let* ident := new_identifiable d_ident in
  Ok (mkModeSwitchedAckEvent ident d_disabled_modes d_start_on_event d_event_source).

(** ** OperationInvokedEvent *)

(** Attributes of OperationInvokedEvent, element.py:7454-7494 *)
Record OperationInvokedEvent := mkOperationInvokedEvent {
  OperationInvokedEvent_ident : identifiable;
  OperationInvokedEvent_disabled_modes : list RModeInAtomicSwcInstanceRef;
  OperationInvokedEvent_start_on_event : option ref;
  OperationInvokedEvent_operation : option POperationInAtomicSwcInstanceRef }.
(** _write_operation_invoked_event, writer.py:4734-4747 *)
Definition write_operation_invoked_event (v : N) (e : OperationInvokedEvent) : out :=
  node "OPERATION-INVOKED-EVENT" [] (cat [
    write_referrable (OperationInvokedEvent_ident e);
    write_multilanguage_referrable (OperationInvokedEvent_ident e);
    write_identifiable (OperationInvokedEvent_ident e);
    write_rte_event_group v (OperationInvokedEvent_disabled_modes e) (OperationInvokedEvent_start_on_event e);
    if_set (OperationInvokedEvent_operation e) (fun a => write_p_operation_in_atomic_swc_instance_ref v a) ]).
(** _read_operation_invoked_event, reader.py:5453-5470 *)
Definition read_operation_invoked_event (v : N) (x : xml) : result OperationInvokedEvent :=
  let k := x_kids x in
  let* d_ident := read_ident (x_attrs x) k in
  let* (d_disabled_modes, d_start_on_event) := read_rte_event_group v k in
  let* d_operation := child "OPERATION-IREF" k (read_p_operation_in_atomic_swc_instance_ref v) in
  let* ident := new_identifiable d_ident in
  Ok (mkOperationInvokedEvent ident d_disabled_modes d_start_on_event d_operation).

(** ** SwcModeManagerErrorEvent *)

(** Attributes of SwcModeManagerErrorEvent, element.py:7502-7539 *)
Record SwcModeManagerErrorEvent := mkSwcModeManagerErrorEvent {
  SwcModeManagerErrorEvent_ident : identifiable;
  SwcModeManagerErrorEvent_disabled_modes : list RModeInAtomicSwcInstanceRef;
  SwcModeManagerErrorEvent_start_on_event : option ref;
  SwcModeManagerErrorEvent_mode_group : option PModeGroupInAtomicSwcInstanceRef }.
(** _write_swc_mode_manager_error_event, writer.py:4749-4762 *)
Definition write_swc_mode_manager_error_event (v : N) (e : SwcModeManagerErrorEvent) : out :=
  node "SWC-MODE-MANAGER-ERROR-EVENT" [] (cat [
    write_referrable (SwcModeManagerErrorEvent_ident e);
    write_multilanguage_referrable (SwcModeManagerErrorEvent_ident e);
    write_identifiable (SwcModeManagerErrorEvent_ident e);
    write_rte_event_group v (SwcModeManagerErrorEvent_disabled_modes e) (SwcModeManagerErrorEvent_start_on_event e);
    if_set (SwcModeManagerErrorEvent_mode_group e) (fun a => write_p_mode_group_in_atomic_swc_instance_ref v "MODE-GROUP-IREF" a) ]).
(** _read_swc_mode_manager_error_event, reader.py:5472-5489 *)
Definition read_swc_mode_manager_error_event (v : N) (x : xml) : result SwcModeManagerErrorEvent :=
  let k := x_kids x in
  let* d_ident := read_ident (x_attrs x) k in
  let* (d_disabled_modes, d_start_on_event) := read_rte_event_group v k in
  let* d_mode_group := child "MODE-GROUP-IREF" k (read_p_mode_group_in_atomic_swc_instance_ref v) in
  let* ident := new_identifiable d_ident in
  Ok (mkSwcModeManagerErrorEvent ident d_disabled_modes d_start_on_event d_mode_group).

(** ** TimingEvent *)

(** Attributes of TimingEvent, element.py:7608-7637 *)
Record TimingEvent := mkTimingEvent {
  TimingEvent_ident : identifiable;
  TimingEvent_disabled_modes : list RModeInAtomicSwcInstanceRef;
  TimingEvent_start_on_event : option ref;
  TimingEvent_offset : option pynum;
  TimingEvent_period : option pynum }.
(** _write_timing_event, writer.py:4793-4808 *)
Definition write_timing_event (v : N) (e : TimingEvent) : out :=
  node "TIMING-EVENT" [] (cat [
    write_referrable (TimingEvent_ident e);
    write_multilanguage_referrable (TimingEvent_ident e);
    write_identifiable (TimingEvent_ident e);
    write_rte_event_group v (TimingEvent_disabled_modes e) (TimingEvent_start_on_event e);
    if_set (TimingEvent_offset e) (fun a => content "OFFSET" (format_number a));
    if_set (TimingEvent_period e) (fun a => content "PERIOD" (format_number a)) ]).
(** _read_timing_event, reader.py:5529-5549 *)
Definition read_timing_event (v : N) (x : xml) : result TimingEvent :=
  let k := x_kids x in
  let* d_ident := read_ident (x_attrs x) k in
  let* (d_disabled_modes, d_start_on_event) := read_rte_event_group v k in
  let* d_offset := child "OFFSET" k rd_number in
  let* d_period := child "PERIOD" k rd_number in
  let* ident := new_identifiable d_ident in
  Ok (mkTimingEvent ident d_disabled_modes d_start_on_event (option_map as_float d_offset) (option_map as_float d_period)).

(** ** TransformerHardErrorEvent *)

(** Attributes of TransformerHardErrorEvent, element.py:7640-7673 *)
Record TransformerHardErrorEvent := mkTransformerHardErrorEvent {
  TransformerHardErrorEvent_ident : identifiable;
  TransformerHardErrorEvent_disabled_modes : list RModeInAtomicSwcInstanceRef;
  TransformerHardErrorEvent_start_on_event : option ref;
  TransformerHardErrorEvent_operation : option POperationInAtomicSwcInstanceRef;
  TransformerHardErrorEvent_required_trigger : option RTriggerInAtomicSwcInstanceRef;
  TransformerHardErrorEvent_trigger : option PTriggerInAtomicSwcTypeInstanceRef }.
(** _write_transformer_hard_error_event_group, writer.py:4824-4830 *)
Definition write_transformer_hard_error_event_group (v : N) (f_operation : option POperationInAtomicSwcInstanceRef) (f_required_trigger : option RTriggerInAtomicSwcInstanceRef) (f_trigger : option PTriggerInAtomicSwcTypeInstanceRef) : out :=
  cat [
    if_set f_operation (fun a => write_p_operation_in_atomic_swc_instance_ref v a);
    if_set f_required_trigger (fun a => write_r_trigger_in_atomic_swc_instance_ref v "REQUIRED-TRIGGER-IREF" a);
    if_set f_trigger (fun a => write_p_trigger_in_atomic_swc_instance_ref v "TRIGGER-IREF" a) ].
(** _write_transformer_hard_error_event, writer.py:4810-4822 *)
Definition write_transformer_hard_error_event (v : N) (e : TransformerHardErrorEvent) : out :=
  node "TRANSFORMER-HARD-ERROR-EVENT" [] (cat [
    write_referrable (TransformerHardErrorEvent_ident e);
    write_multilanguage_referrable (TransformerHardErrorEvent_ident e);
    write_identifiable (TransformerHardErrorEvent_ident e);
    write_rte_event_group v (TransformerHardErrorEvent_disabled_modes e) (TransformerHardErrorEvent_start_on_event e);
    write_transformer_hard_error_event_group v (TransformerHardErrorEvent_operation e) (TransformerHardErrorEvent_required_trigger e) (TransformerHardErrorEvent_trigger e) ]).
(** _read_transformer_hard_error_event_group, reader.py:5568-5580 *)
Definition read_transformer_hard_error_event_group (v : N) (k : list xml) : result (option POperationInAtomicSwcInstanceRef * option RTriggerInAtomicSwcInstanceRef * option PTriggerInAtomicSwcTypeInstanceRef) :=
  let* d_operation := child "OPERATION-IREF" k (read_p_operation_in_atomic_swc_instance_ref v) in
  let* d_required_trigger := child "REQUIRED-TRIGGER-IREF" k (read_r_trigger_in_atomic_swc_instance_ref v) in
  let* d_trigger := child "TRIGGER-IREF" k (read_p_trigger_in_atomic_swc_instance_ref v) in
  Ok (d_operation, d_required_trigger, d_trigger).
(** _read_transformer_hard_error_event, reader.py:5551-5566 *)
Definition read_transformer_hard_error_event (v : N) (x : xml) : result TransformerHardErrorEvent :=
  let k := x_kids x in
  let* d_ident := read_ident (x_attrs x) k in
  let* (d_disabled_modes, d_start_on_event) := read_rte_event_group v k in
  let* (d_operation, d_required_trigger, d_trigger) := read_transformer_hard_error_event_group v k in
  let* ident := new_identifiable d_ident in
  Ok (mkTransformerHardErrorEvent ident d_disabled_modes d_start_on_event d_operation d_required_trigger d_trigger).

(** ** CommunicationBufferLocking *)

(** Attributes of CommunicationBufferLocking, element.py:7701-7713 *)
Record CommunicationBufferLocking := mkCommunicationBufferLocking {
  CommunicationBufferLocking_support_buffer_locking : option SupportBufferLocking }.
(** CommunicationBufferLocking.is_empty, xml/base.py:17-29 *)
Definition CommunicationBufferLocking_is_empty (e : CommunicationBufferLocking) : bool := unset (CommunicationBufferLocking_support_buffer_locking e).
(** _write_communication_buffer_locking, writer.py:4851-4864 *)
Definition write_communication_buffer_locking (v : N) (e : CommunicationBufferLocking) : out :=
  if CommunicationBufferLocking_is_empty e then empty "COMMUNICATION-BUFFER-LOCKING" else
  node "COMMUNICATION-BUFFER-LOCKING" [] (cat [
    if_set (CommunicationBufferLocking_support_buffer_locking e) (fun a => content "SUPPORT-BUFFER-LOCKING" (enum_text em_SupportBufferLocking a)) ]).
(** _read_communication_buffer_locking, reader.py:5605-5618 *)
Definition read_communication_buffer_locking (v : N) (x : xml) : result CommunicationBufferLocking :=
  let k := x_kids x in
  let* d_support_buffer_locking := child "SUPPORT-BUFFER-LOCKING" k (rd_enum em_SupportBufferLocking) in
  Ok (mkCommunicationBufferLocking d_support_buffer_locking).

(** ** ExclusiveArea *)

(** Attributes of ExclusiveArea, element.py:7791-7804 *)
Record ExclusiveArea := mkExclusiveArea {
  ExclusiveArea_ident : identifiable }.
(** _write_exclusive_area, writer.py:4909-4918 *)
Definition write_exclusive_area (v : N) (e : ExclusiveArea) : out :=
  node "EXCLUSIVE-AREA" [] (cat [
    write_referrable (ExclusiveArea_ident e);
    write_multilanguage_referrable (ExclusiveArea_ident e);
    write_identifiable (ExclusiveArea_ident e) ]).
(** _read_exclusive_area, reader.py:5670-5680 *)
Definition read_exclusive_area (v : N) (x : xml) : result ExclusiveArea :=
  let k := x_kids x in
  let* d_ident := read_ident (x_attrs x) k in
  let* ident := new_identifiable d_ident in
  Ok (mkExclusiveArea ident).

