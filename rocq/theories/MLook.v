(** What every reading method asks of the children of its element.  Source: /repo/src/autosar/xml/reader.py.
    [Get] and [Skip] are the calls of get and skip on the ChildElementMap, in order, with those made by the methods the map
    is passed on to.  No call depends on what an earlier one found; those that depend on the schema version (reader.py:5080-5118)
    or on the name of the element (reader.py:4323-4329, 3005-3015) are functions of these.
    No proofs in this file. *)
From Verif Require Import Base MNum MXml MEnum MRefTab MRef MCodec MElem0 MElem1 MElemA MElemB MElemC MElem2 MElemD MElem3 MElem4 MElemE MElem5 MElemF MArxml MReport.
Open Scope list_scope.
Open Scope string_scope.
Open Scope N_scope.

(** A method with a ChildElementMap: its model, the calls it makes (they may depend on the schema version and the name of
    the element), the names of which it reads all children with findall on the element itself, and whether it ends with _report_unprocessed_elements
    (reader.py:398-404). *)
Record method := mkMethod { m_name : string; m_type : Type; m_read : N -> xml -> result m_type; m_steps : N -> string -> list access; m_all : list string; m_reports : bool }.
Arguments mkMethod m_name {m_type} m_read m_steps m_all m_reports.

(** ** The calls *)
(** _read_admin_data, reader.py:537-550 *)
Definition steps_admin_data (v : N) : list access := [Skip "LANGUAGE"; Skip "USED-LANGUAGES"; Skip "DOC-REVISIONS"; Get "SDGS"].
(** _read_referrable, reader.py:479-493 *)
Definition steps_referrable (v : N) : list access := [Get "SHORT-NAME"; Get "LONG-NAME"].
(** _read_multi_language_referrable, reader.py:495-502 *)
Definition steps_multi_language_referrable (v : N) : list access := [Get "LONG-NAME"].
(** _read_identifiable, reader.py:504-526 *)
Definition steps_identifiable (v : N) : list access := [Get "DESC"; Get "CATEGORY"; Get "ADMIN-DATA"; Get "INTRODUCTION"; Get "ANNOTATIONS"].
(** _read_package_group, reader.py:632-644 *)
Definition steps_package_group (v : N) : list access := [Get "ELEMENTS"; Get "AR-PACKAGES"].
(** _read_package, reader.py:621-630 *)
Definition steps_package (v : N) : list access := steps_referrable v ++ steps_multi_language_referrable v ++ steps_identifiable v ++ steps_package_group v.
(** _read_compu_method_group, reader.py:1161-1178 *)
Definition steps_compu_method_group (v : N) : list access := [Get "DISPLAY-FORMAT"; Get "UNIT-REF"; Get "COMPU-INTERNAL-TO-PHYS"; Get "COMPU-PHYS-TO-INTERNAL"].
(** _read_compu_method, reader.py:1146-1159 *)
Definition steps_compu_method (v : N) : list access := steps_referrable v ++ steps_multi_language_referrable v ++ steps_identifiable v ++ steps_compu_method_group v.
(** _read_computation, reader.py:1180-1195 *)
Definition steps_computation (v : N) : list access := [Get "COMPU-SCALES"; Get "COMPU-DEFAULT-VALUE"].
(** _read_compu_scale, reader.py:1208-1252 *)
Definition steps_compu_scale (v : N) : list access := [Get "SHORT-LABEL"; Get "SYMBOL"; Get "DESC"; Get "MASK"; Get "LOWER-LIMIT"; Get "UPPER-LIMIT"; Get "COMPU-INVERSE-VALUE"; Get "COMPU-CONST"; Get "COMPU-RATIONAL-COEFFS"; Skip "VARIATION-POINT"].
(** _read_compu_rational, reader.py:1283-1298 *)
Definition steps_compu_rational (v : N) : list access := [Get "COMPU-NUMERATOR"; Get "COMPU-DENOMINATOR"].
(** _read_data_constraint_group, reader.py:1329-1339 *)
Definition steps_data_constraint_group (v : N) : list access := [Get "DATA-CONSTR-RULES"].
(** _read_data_constraint, reader.py:1314-1327 *)
Definition steps_data_constraint (v : N) : list access := steps_referrable v ++ steps_multi_language_referrable v ++ steps_identifiable v ++ steps_data_constraint_group v.
(** _read_data_constraint_rule, reader.py:1341-1358 *)
Definition steps_data_constraint_rule (v : N) : list access := [Get "CONSTR-LEVEL"; Get "PHYS-CONSTRS"; Get "INTERNAL-CONSTRS"].
(** _read_constraint_base, reader.py:1385-1411 *)
Definition steps_constraint_base (v : N) : list access := [Get "LOWER-LIMIT"; Get "UPPER-LIMIT"; Get "SCALE-CONSTRS"; Get "MAX-GRADIENT"; Get "MAX-DIFF"; Get "MONOTONY"].
(** _read_internal_constraint, reader.py:1360-1369 *)
Definition steps_internal_constraint (v : N) : list access := steps_constraint_base v.
(** _read_physical_constraint, reader.py:1371-1383 *)
Definition steps_physical_constraint (v : N) : list access := steps_constraint_base v ++ [Get "UNIT-REF"].
(** _read_scale_constraint, reader.py:1426-1450 *)
Definition steps_scale_constraint (v : N) : list access := [Get "SHORT-LABEL"; Get "DESC"; Get "LOWER-LIMIT"; Get "UPPER-LIMIT"].
(** _read_unit_group, reader.py:1469-1485 *)
Definition steps_unit_group (v : N) : list access := [Get "DISPLAY-NAME"; Get "FACTOR-SI-TO-UNIT"; Get "OFFSET-SI-TO-UNIT"; Get "PHYSICAL-DIMENSION-REF"].
(** _read_unit, reader.py:1454-1467 *)
Definition steps_unit (v : N) : list access := steps_referrable v ++ steps_multi_language_referrable v ++ steps_identifiable v ++ steps_unit_group v.
(** _read_data_filter, reader.py:1489-1518 *)
Definition steps_data_filter (v : N) : list access := [Get "DATA-FILTER-TYPE"; Get "MASK"; Get "MAX"; Get "MIN"; Get "OFFSET"; Get "PERIOD"; Get "X"].
(** _read_engineering_object, reader.py:1520-1529 *)
Definition steps_engineering_object (v : N) : list access := [Get "SHORT-LABEL"; Get "CATEGORY"].
(** _read_autosar_engineering_object, reader.py:1531-1540 *)
Definition steps_autosar_engineering_object (v : N) : list access := steps_engineering_object v.
(** _read_code, reader.py:1542-1560 *)
Definition steps_code (v : N) : list access := steps_referrable v ++ steps_multi_language_referrable v ++ steps_identifiable v ++ [Get "ARTIFACT-DESCRIPTORS"; Skip "CALLBACK-HEADER-REFS"].
(** _read_sw_addr_method_group, reader.py:1604-1612 *)
Definition steps_sw_addr_method_group (v : N) : list access := [Skip "MEMORY-ALLOCATION-KEYWORD-POLICY"; Skip "OPTIONS"; Skip "SECTION-INITIALIZATION-POLICY"; Skip "SECTION-TYPE"].
(** _read_sw_addr_method, reader.py:1589-1602 *)
Definition steps_sw_addr_method (v : N) : list access := steps_referrable v ++ steps_multi_language_referrable v ++ steps_identifiable v ++ steps_sw_addr_method_group v.
(** _read_base_type, reader.py:1629-1653 *)
Definition steps_base_type (v : N) : list access := [Get "BASE-TYPE-SIZE"; Get "MAX-BASE-TYPE-SIZE"; Get "BASE-TYPE-ENCODING"; Get "MEM-ALIGNMENT"; Get "BYTE-ORDER"; Get "NATIVE-DECLARATION"].
(** _read_sw_base_type, reader.py:1614-1627 *)
Definition steps_sw_base_type (v : N) : list access := steps_referrable v ++ steps_multi_language_referrable v ++ steps_identifiable v ++ steps_base_type v.
(** _read_sw_bit_representation, reader.py:1655-1669 *)
Definition steps_sw_bit_representation (v : N) : list access := [Get "BIT-POSITION"; Get "NUMBER-OF-BITS"].
(** _read_sw_data_def_props, reader.py:1671-1682 *)
Definition steps_sw_data_def_props (v : N) : list access := [Get "SW-DATA-DEF-PROPS-VARIANTS"].
(** _read_sw_data_def_props_content, reader.py:1710-1783 *)
Definition steps_sw_data_def_props_content (v : N) : list access := [Get "DISPLAY-PRESENTATION"; Get "STEP-SIZE"; Skip "SW-VALUE-BLOCK-SIZE-MULTS"; Get "ANNOTATIONS"; Get "SW-ADDR-METHOD-REF"; Get "SW-ALIGNMENT"; Get "BASE-TYPE-REF"; Get "SW-BIT-REPRESENTATION"; Get "SW-CALIBRATION-ACCESS"; Get "SW-TEXT-PROPS"; Get "COMPU-METHOD-REF"; Get "DATA-CONSTR-REF"; Get "DISPLAY-FORMAT"; Get "IMPLEMENTATION-DATA-TYPE-REF"; Get "SW-IMPL-POLICY"; Get "ADDITIONAL-NATIVE-TYPE-QUALIFIER"; Get "SW-INTENDED-RESOLUTION"; Get "SW-INTERPOLATION-METHOD"; Get "SW-IS-VIRTUAL"; Get "SW-POINTER-TARGET-PROPS"; Get "UNIT-REF"].
(** _read_sw_data_def_props_conditional, reader.py:1697-1708 *)
Definition steps_sw_data_def_props_conditional (v : N) : list access := steps_sw_data_def_props_content v.
(** _read_sw_text_props, reader.py:1785-1806 *)
Definition steps_sw_text_props (v : N) : list access := [Get "ARRAY-SIZE-SEMANTICS"; Get "SW-MAX-TEXT-SIZE"; Get "BASE-TYPE-REF"; Get "SW-FILL-CHARACTER"].
(** _read_sw_pointer_target_props, reader.py:1808-1826 *)
Definition steps_sw_pointer_target_props (v : N) : list access := [Get "TARGET-CATEGORY"; Get "SW-DATA-DEF-PROPS"; Get "FUNCTION-POINTER-SIGNATURE-REF"].
(** _read_implementation_props, reader.py:1841-1850 *)
Definition steps_implementation_props (v : N) : list access := [Get "SYMBOL"].
(** _read_symbol_props, reader.py:1828-1839 *)
Definition steps_symbol_props (v : N) : list access := steps_referrable v ++ steps_implementation_props v.
(** _read_implementation_data_type_element_group, reader.py:1868-1899 *)
Definition steps_implementation_data_type_element_group (v : N) : list access := [Get "ARRAY-IMPL-POLICY"; Get "ARRAY-SIZE"; Get "ARRAY-SIZE-HANDLING"; Get "ARRAY-SIZE-SEMANTICS"; Get "IS-OPTIONAL"; Get "SUB-ELEMENTS"; Get "SW-DATA-DEF-PROPS"; Skip "VARIATION-POINT"].
(** _read_implementation_data_type_element, reader.py:1852-1866 *)
Definition steps_implementation_data_type_element (v : N) : list access := steps_referrable v ++ steps_multi_language_referrable v ++ steps_identifiable v ++ steps_implementation_data_type_element_group v.
(** _read_autosar_data_type, reader.py:1941-1948 *)
Definition steps_autosar_data_type (v : N) : list access := [Get "SW-DATA-DEF-PROPS"].
(** _read_implementation_data_type_group, reader.py:1917-1939 *)
Definition steps_implementation_data_type_group (v : N) : list access := [Get "DYNAMIC-ARRAY-SIZE-PROFILE"; Get "IS-STRUCT-WITH-OPTIONAL-ELEMENT"; Get "SUB-ELEMENTS"; Get "SYMBOL-PROPS"; Get "TYPE-EMITTER"].
(** _read_implementation_data_type, reader.py:1901-1915 *)
Definition steps_implementation_data_type (v : N) : list access := steps_referrable v ++ steps_multi_language_referrable v ++ steps_identifiable v ++ steps_autosar_data_type v ++ steps_implementation_data_type_group v.
(** _read_application_primitive_data_type, reader.py:1959-1974 *)
Definition steps_application_primitive_data_type (v : N) : list access := steps_referrable v ++ steps_multi_language_referrable v ++ steps_identifiable v ++ steps_autosar_data_type v.
(** _read_data_prototype, reader.py:1950-1957 *)
Definition steps_data_prototype (v : N) : list access := [Get "SW-DATA-DEF-PROPS"].
(** _read_application_composite_element_data_prototype, reader.py:1976-1985 *)
Definition steps_application_composite_element_data_prototype (v : N) : list access := [Get "TYPE-TREF"].
(** _read_application_array_element_group, reader.py:2015-2031 *)
Definition steps_application_array_element_group (v : N) : list access := [Get "ARRAY-SIZE-HANDLING"; Get "ARRAY-SIZE-SEMANTICS"; Get "INDEX-DATA-TYPE-REF"; Get "MAX-NUMBER-OF-ELEMENTS"].
(** _read_application_array_element, reader.py:1998-2013 *)
Definition steps_application_array_element (v : N) : list access := steps_referrable v ++ steps_multi_language_referrable v ++ steps_identifiable v ++ steps_data_prototype v ++ steps_application_composite_element_data_prototype v ++ steps_application_array_element_group v.
(** _read_application_record_element_group, reader.py:2050-2057 *)
Definition steps_application_record_element_group (v : N) : list access := [Get "IS-OPTIONAL"].
(** _read_application_record_element, reader.py:2033-2048 *)
Definition steps_application_record_element (v : N) : list access := steps_referrable v ++ steps_multi_language_referrable v ++ steps_identifiable v ++ steps_data_prototype v ++ steps_application_composite_element_data_prototype v ++ steps_application_record_element_group v.
(** _read_application_array_data_type_group, reader.py:2077-2086 *)
Definition steps_application_array_data_type_group (v : N) : list access := [Get "DYNAMIC-ARRAY-SIZE-PROFILE"; Get "ELEMENT"].
(** _read_application_array_data_type, reader.py:2059-2075 *)
Definition steps_application_array_data_type (v : N) : list access := steps_referrable v ++ steps_multi_language_referrable v ++ steps_identifiable v ++ steps_autosar_data_type v ++ steps_application_array_data_type_group v.
(** _read_application_record_data_type_group, reader.py:2106-2115 *)
Definition steps_application_record_data_type_group (v : N) : list access := [Get "ELEMENTS"].
(** _read_application_record_data_type, reader.py:2088-2104 *)
Definition steps_application_record_data_type (v : N) : list access := steps_referrable v ++ steps_multi_language_referrable v ++ steps_identifiable v ++ steps_autosar_data_type v ++ steps_application_record_data_type_group v.
(** _read_data_type_map, reader.py:2117-2131 *)
Definition steps_data_type_map (v : N) : list access := [Get "APPLICATION-DATA-TYPE-REF"; Get "IMPLEMENTATION-DATA-TYPE-REF"].
(** _read_read_data_type_mapping_set_group, reader.py:2149-2159 *)
Definition steps_read_data_type_mapping_set_group (v : N) : list access := [Get "DATA-TYPE-MAPS"].
(** _read_data_type_mapping_set, reader.py:2133-2147 *)
Definition steps_data_type_mapping_set (v : N) : list access := steps_referrable v ++ steps_multi_language_referrable v ++ steps_identifiable v ++ steps_read_data_type_mapping_set_group v.
(** _read_autosar_data_prototype, reader.py:1987-1996 *)
Definition steps_autosar_data_prototype (v : N) : list access := [Get "TYPE-TREF"].
(** _read_parameter_data_prototype_group, reader.py:2196-2208 *)
Definition steps_parameter_data_prototype_group (v : N) : list access := [Get "INIT-VALUE"; Skip "VARIATION-POINT"].
(** _read_parameter_data_prototype, reader.py:2180-2194 *)
Definition steps_parameter_data_prototype (v : N) : list access := steps_referrable v ++ steps_multi_language_referrable v ++ steps_identifiable v ++ steps_data_prototype v ++ steps_autosar_data_prototype v ++ steps_parameter_data_prototype_group v.
(** _read_variable_data_prototype_group, reader.py:2226-2238 *)
Definition steps_variable_data_prototype_group (v : N) : list access := [Get "INIT-VALUE"; Skip "VARIATION-POINT"].
(** _read_variable_data_prototype, reader.py:2210-2224 *)
Definition steps_variable_data_prototype (v : N) : list access := steps_referrable v ++ steps_multi_language_referrable v ++ steps_identifiable v ++ steps_data_prototype v ++ steps_autosar_data_prototype v ++ steps_variable_data_prototype_group v.
(** _read_argument_data_prototype_group, reader.py:2256-2267 *)
Definition steps_argument_data_prototype_group (v : N) : list access := [Get "DIRECTION"; Get "SERVER-ARGUMENT-IMPL-POLICY"; Skip "TYPE-BLUEPRINTS"; Skip "VARIATION-POINT"].
(** _read_argument_data_prototype, reader.py:2240-2254 *)
Definition steps_argument_data_prototype (v : N) : list access := steps_referrable v ++ steps_multi_language_referrable v ++ steps_identifiable v ++ steps_data_prototype v ++ steps_autosar_data_prototype v ++ steps_argument_data_prototype_group v.
(** _read_mode_request_type_map, reader.py:2269-2283 *)
Definition steps_mode_request_type_map (v : N) : list access := [Get "IMPLEMENTATION-DATA-TYPE-REF"; Get "MODE-GROUP-REF"].
(** _read_value_specification_group, reader.py:2964-2970 *)
Definition steps_value_specification_group (v : N) : list access := [Get "SHORT-LABEL"].
(** _read_text_value_specification_group, reader.py:2849-2856 *)
Definition steps_text_value_specification_group (v : N) : list access := [Get "VALUE"].
(** _read_text_value_specification, reader.py:2834-2847 *)
Definition steps_text_value_specification (v : N) : list access := steps_value_specification_group v ++ steps_text_value_specification_group v.
(** _read_numerical_value_specification_group, reader.py:2874-2881 *)
Definition steps_numerical_value_specification_group (v : N) : list access := [Get "VALUE"].
(** _read_numerical_value_specification, reader.py:2858-2872 *)
Definition steps_numerical_value_specification (v : N) : list access := steps_value_specification_group v ++ steps_numerical_value_specification_group v.
(** _read_not_available_value_specification_group, reader.py:2899-2907 *)
Definition steps_not_available_value_specification_group (v : N) : list access := [Get "DEFAULT-PATTERN"].
(** _read_not_available_value_specification, reader.py:2883-2897 *)
Definition steps_not_available_value_specification (v : N) : list access := steps_value_specification_group v ++ steps_not_available_value_specification_group v.
(** _read_array_value_specification_group, reader.py:2925-2935 *)
Definition steps_array_value_specification_group (v : N) : list access := [Get "ELEMENTS"].
(** _read_array_value_specification, reader.py:2910-2923 *)
Definition steps_array_value_specification (v : N) : list access := steps_value_specification_group v ++ steps_array_value_specification_group v.
(** _read_record_value_specification_group, reader.py:2952-2962 *)
Definition steps_record_value_specification_group (v : N) : list access := [Get "FIELDS"].
(** _read_record_value_specification, reader.py:2937-2950 *)
Definition steps_record_value_specification (v : N) : list access := steps_value_specification_group v ++ steps_record_value_specification_group v.
(** _read_application_value_specification_group, reader.py:2987-3003 *)
Definition steps_application_value_specification_group (v : N) : list access := [Get "CATEGORY"; Get "SW-AXIS-CONTS"; Get "SW-VALUE-CONT"].
(** _read_application_value_specification, reader.py:2972-2985 *)
Definition steps_application_value_specification (v : N) : list access := steps_value_specification_group v ++ steps_application_value_specification_group v.
(** _read_constant_specification_group, reader.py:3032-3040 *)
Definition steps_constant_specification_group (v : N) : list access := [Get "VALUE-SPEC"].
(** _read_constant_specification, reader.py:3017-3030 *)
Definition steps_constant_specification (v : N) : list access := steps_referrable v ++ steps_multi_language_referrable v ++ steps_identifiable v ++ steps_constant_specification_group v.
(** _read_constant_reference_group, reader.py:3056-3062 *)
Definition steps_constant_reference_group (v : N) : list access := [Get "CONSTANT-REF"].
(** _read_constant_reference, reader.py:3042-3054 *)
Definition steps_constant_reference (v : N) : list access := steps_value_specification_group v ++ steps_constant_reference_group v.
(** _read_sw_axis_cont_group, reader.py:3135-3160 *)
Definition steps_sw_axis_cont_group (v : N) : list access := [Get "CATEGORY"; Get "UNIT-REF"; Get "UNIT-DISPLAY-NAME"; Get "SW-AXIS-INDEX"; Get "SW-ARRAYSIZE"; Get "SW-VALUES-PHYS"].
(** _read_sw_axis_cont, reader.py:3123-3133 *)
Definition steps_sw_axis_cont (v : N) : list access := steps_sw_axis_cont_group v.
(** _read_sw_value_cont_group, reader.py:3174-3189 *)
Definition steps_sw_value_cont_group (v : N) : list access := [Get "UNIT-REF"; Get "UNIT-DISPLAY-NAME"; Get "SW-ARRAYSIZE"; Get "SW-VALUES-PHYS"].
(** _read_sw_value_cont, reader.py:3162-3172 *)
Definition steps_sw_value_cont (v : N) : list access := steps_sw_value_cont_group v.
(** _read_port_interface, reader.py:3331-3340 *)
Definition steps_port_interface (v : N) : list access := [Get "IS-SERVICE"; Skip "NAMESPACES"; Skip "SERVICE-KIND"].
(** _read_mode_declaration, reader.py:3193-3209 *)
Definition steps_mode_declaration (v : N) : list access := steps_referrable v ++ steps_multi_language_referrable v ++ steps_identifiable v ++ steps_port_interface v ++ [Get "VALUE"; Skip "MODE-DECLARATION"].
(** _read_mode_error_behavior, reader.py:3211-3224 *)
Definition steps_mode_error_behavior (v : N) : list access := [Get "DEFAULT-MODE-REF"; Get "ERROR-REACTION-POLICY"].
(** _read_mode_transition_group, reader.py:3240-3249 *)
Definition steps_mode_transition_group (v : N) : list access := [Get "ENTERED-MODE-REF"; Get "EXITED-MODE-REF"].
(** _read_mode_transition, reader.py:3226-3238 *)
Definition steps_mode_transition (v : N) : list access := steps_referrable v ++ steps_multi_language_referrable v ++ steps_identifiable v ++ steps_mode_transition_group v.
(** _read_mode_declaration_group_data, reader.py:3266-3297 *)
Definition steps_mode_declaration_group_data (v : N) : list access := [Get "INITIAL-MODE-REF"; Get "MODE-DECLARATIONS"; Get "MODE-MANAGER-ERROR-BEHAVIOR"; Get "MODE-TRANSITIONS"; Get "MODE-USER-ERROR-BEHAVIOR"; Get "ON-TRANSITION-VALUE"].
(** _read_mode_declaration_group, reader.py:3251-3264 *)
Definition steps_mode_declaration_group (v : N) : list access := steps_referrable v ++ steps_multi_language_referrable v ++ steps_identifiable v ++ steps_mode_declaration_group_data v.
(** _read_mode_declaration_group_prototype_data, reader.py:3316-3327 *)
Definition steps_mode_declaration_group_prototype_data (v : N) : list access := [Get "SW-CALIBRATION-ACCESS"; Get "TYPE-TREF"; Skip "VARIATION-POINT"].
(** _read_mode_declaration_group_prototype, reader.py:3299-3314 *)
Definition steps_mode_declaration_group_prototype (v : N) : list access := steps_referrable v ++ steps_multi_language_referrable v ++ steps_identifiable v ++ steps_mode_declaration_group_prototype_data v.
(** _read_nv_data_interface_group, reader.py:3357-3369 *)
Definition steps_nv_data_interface_group (v : N) : list access := [Get "NV-DATAS"].
(** _read_nv_data_interface, reader.py:3342-3355 *)
Definition steps_nv_data_interface (v : N) : list access := steps_referrable v ++ steps_multi_language_referrable v ++ steps_identifiable v ++ steps_port_interface v ++ steps_nv_data_interface_group v.
(** _read_parameter_interface_group, reader.py:3386-3398 *)
Definition steps_parameter_interface_group (v : N) : list access := [Get "PARAMETERS"].
(** _read_parameter_interface, reader.py:3371-3384 *)
Definition steps_parameter_interface (v : N) : list access := steps_referrable v ++ steps_multi_language_referrable v ++ steps_identifiable v ++ steps_port_interface v ++ steps_parameter_interface_group v.
(** _read_sender_receiver_interface_group, reader.py:3415-3436 *)
Definition steps_sender_receiver_interface_group (v : N) : list access := [Get "DATA-ELEMENTS"; Get "INVALIDATION-POLICYS"; Skip "META-DATA-ITEM-SETS"].
(** _read_sender_receiver_interface, reader.py:3400-3413 *)
Definition steps_sender_receiver_interface (v : N) : list access := steps_referrable v ++ steps_multi_language_referrable v ++ steps_identifiable v ++ steps_port_interface v ++ steps_sender_receiver_interface_group v.
(** _read_invalidation_policy, reader.py:3438-3451 *)
Definition steps_invalidation_policy (v : N) : list access := [Get "DATA-ELEMENT-REF"; Get "HANDLE-INVALID"].
(** _read_application_error_group, reader.py:3467-3473 *)
Definition steps_application_error_group (v : N) : list access := [Get "ERROR-CODE"].
(** _read_application_error, reader.py:3453-3465 *)
Definition steps_application_error (v : N) : list access := steps_referrable v ++ steps_multi_language_referrable v ++ steps_identifiable v ++ steps_application_error_group v.
(** _read_client_server_operation_group, reader.py:3489-3517 *)
Definition steps_client_server_operation_group (v : N) : list access := [Get "ARGUMENTS"; Get "DIAG-ARG-INTEGRITY"; Get "FIRE-AND-FORGET"; Skip "POSSIBLE-AP-ERROR-REFS"; Skip "POSSIBLE-AP-ERROR-SET-REFS"; Get "POSSIBLE-ERROR-REFS"; Skip "VARIATION-POINT"].
(** _read_client_server_operation, reader.py:3475-3487 *)
Definition steps_client_server_operation (v : N) : list access := steps_referrable v ++ steps_multi_language_referrable v ++ steps_identifiable v ++ steps_client_server_operation_group v.
(** _read_client_server_interface_group, reader.py:3534-3553 *)
Definition steps_client_server_interface_group (v : N) : list access := [Get "OPERATIONS"; Get "POSSIBLE-ERRORS"].
(** _read_client_server_interface, reader.py:3519-3532 *)
Definition steps_client_server_interface (v : N) : list access := steps_referrable v ++ steps_multi_language_referrable v ++ steps_identifiable v ++ steps_port_interface v ++ steps_client_server_interface_group v.
(** _read_mode_switch_interface, reader.py:3555-3570 *)
Definition steps_mode_switch_interface (v : N) : list access := steps_referrable v ++ steps_multi_language_referrable v ++ steps_identifiable v ++ steps_port_interface v ++ [Get "MODE-GROUP"].
(** _read_describable, reader.py:1128-1142 *)
Definition steps_describable (v : N) : list access := [Get "DESC"; Get "CATEGORY"; Get "INTRODUCTION"; Skip "ADMIN-DATA"].
(** _read_e2e_transformation_com_spec_props_group, reader.py:3588-3642 *)
Definition steps_e2e_transformation_com_spec_props_group (v : N) : list access := [Get "CLEAR-FROM-VALID-TO-INVALID"; Get "DISABLE-END-TO-END-CHECK"; Get "DISABLE-END-TO-END-STATE-MACHINE"; Get "E-2-E-PROFILE-COMPATIBILITY-PROPS-REF"; Get "MAX-DELTA-COUNTER"; Get "MAX-ERROR-STATE-INIT"; Get "MAX-ERROR-STATE-INVALID"; Get "MAX-ERROR-STATE-VALID"; Get "MAX-NO-NEW-OR-REPEATED-DATA"; Get "MIN-OK-STATE-INIT"; Get "MIN-OK-STATE-INVALID"; Get "MIN-OK-STATE-VALID"; Get "SYNC-COUNTER-INIT"; Get "WINDOW-SIZE"; Get "WINDOW-SIZE-INIT"; Get "WINDOW-SIZE-INVALID"; Get "WINDOW-SIZE-VALID"].
(** _read_e2e_transformation_com_spec_props, reader.py:3574-3586 *)
Definition steps_e2e_transformation_com_spec_props (v : N) : list access := steps_describable v ++ steps_e2e_transformation_com_spec_props_group v.
(** _read_e2e_profile_compatibility_props_group, reader.py:3660-3666 *)
Definition steps_e2e_profile_compatibility_props_group (v : N) : list access := [Get "TRANSIT-TO-INVALID-EXTENDED"].
(** _read_e2e_profile_compatibility_props, reader.py:3644-3658 *)
Definition steps_e2e_profile_compatibility_props (v : N) : list access := steps_referrable v ++ steps_multi_language_referrable v ++ steps_identifiable v ++ steps_e2e_profile_compatibility_props_group v.
(** _read_mode_switched_ack_request, reader.py:3670-3681 *)
Definition steps_mode_switched_ack_request (v : N) : list access := [Get "TIMEOUT"].
(** _read_mode_switch_sender_com_spec, reader.py:3683-3703 *)
Definition steps_mode_switch_sender_com_spec (v : N) : list access := [Get "ENHANCED-MODE-API"; Get "MODE-GROUP-REF"; Get "MODE-SWITCHED-ACK"; Get "QUEUE-LENGTH"].
(** _read_transmission_acknowledgement_request, reader.py:3705-3718 *)
Definition steps_transmission_acknowledgement_request (v : N) : list access := [Get "TIMEOUT"].
(** _read_tranmsission_com_spec_props, reader.py:3720-3739 *)
Definition steps_tranmsission_com_spec_props (v : N) : list access := [Get "DATA-UPDATE-PERIOD"; Get "MINIMUM-SEND-INTERVAL"; Get "TRANSMISSION-MODE"].
(** _read_sender_com_spec_group, reader.py:3741-3765 *)
Definition steps_sender_com_spec_group (v : N) : list access := [Skip "COMPOSITE-NETWORK-REPRESENTATIONS"; Get "DATA-ELEMENT-REF"; Skip "DATA-UPDATE-PERIOD"; Get "HANDLE-OUT-OF-RANGE"; Get "NETWORK-REPRESENTATION"; Skip "SENDER-INTENT"; Get "TRANSMISSION-ACKNOWLEDGE"; Get "TRANSMISSION-PROPS"; Get "USES-END-TO-END-PROTECTION"].
(** _read_queued_sender_com_spec, reader.py:3767-3778 *)
Definition steps_queued_sender_com_spec (v : N) : list access := steps_sender_com_spec_group v.
(** _read_nonqueued_sender_com_spec_group, reader.py:3794-3808 *)
Definition steps_nonqueued_sender_com_spec_group (v : N) : list access := [Get "DATA-FILTER"; Get "INIT-VALUE"].
(** _read_nonqueued_sender_com_spec, reader.py:3780-3792 *)
Definition steps_nonqueued_sender_com_spec (v : N) : list access := steps_sender_com_spec_group v ++ steps_nonqueued_sender_com_spec_group v.
(** _read_nv_provider_com_spec_group, reader.py:3823-3845 *)
Definition steps_nv_provider_com_spec_group (v : N) : list access := [Get "RAM-BLOCK-INIT-VALUE"; Get "ROM-BLOCK-INIT-VALUE"; Get "VARIABLE-REF"].
(** _read_nv_provider_com_spec, reader.py:3810-3821 *)
Definition steps_nv_provider_com_spec (v : N) : list access := steps_nv_provider_com_spec_group v.
(** _read_parameter_provide_com_spec, reader.py:3847-3868 *)
Definition steps_parameter_provide_com_spec (v : N) : list access := [Get "INIT-VALUE"; Get "PARAMETER-REF"].
(** _read_server_com_spec_group, reader.py:3883-3900 *)
Definition steps_server_com_spec_group (v : N) : list access := [Skip "GETTER-REF"; Get "OPERATION-REF"; Get "QUEUE-LENGTH"; Skip "SETTER-REF"; Get "TRANSFORMATION-COM-SPEC-PROPSS"].
(** _read_server_com_spec, reader.py:3870-3881 *)
Definition steps_server_com_spec (v : N) : list access := steps_server_com_spec_group v.
(** _read_receiver_com_spec, reader.py:3919-3962 *)
Definition steps_receiver_com_spec (v : N) : list access := [Skip "COMPOSITE-NETWORK-REPRESENTATIONS"; Get "DATA-ELEMENT-REF"; Skip "DATA-UPDATE-PERIOD"; Skip "EXTERNAL-REPLACEMENT-REF"; Get "HANDLE-OUT-OF-RANGE"; Get "HANDLE-OUT-OF-RANGE-STATUS"; Get "MAX-DELTA-COUNTER-INIT"; Get "MAX-NO-NEW-OR-REPEATED-DATA"; Get "NETWORK-REPRESENTATION"; Skip "RECEIVER-INTENT"; Get "RECEPTION-PROPS"; Get "REPLACE-WITH"; Get "SYNC-COUNTER-INIT"; Get "TRANSFORMATION-COM-SPEC-PROPSS"; Get "USES-END-TO-END-PROTECTION"].
(** _read_reception_com_spec_props, reader.py:3902-3917 *)
Definition steps_reception_com_spec_props (v : N) : list access := steps_receiver_com_spec v ++ [Get "DATA-UPDATE-PERIOD"; Get "TIMEOUT"].
(** _read_queued_receiver_com_spec, reader.py:3964-3976 *)
Definition steps_queued_receiver_com_spec (v : N) : list access := steps_receiver_com_spec v ++ [Get "QUEUE-LENGTH"].
(** _read_nonqueued_receiver_com_spec_group, reader.py:3991-4028 *)
Definition steps_nonqueued_receiver_com_spec_group (v : N) : list access := [Get "ALIVE-TIMEOUT"; Get "ENABLE-UPDATE"; Get "FILTER"; Get "HANDLE-DATA-STATUS"; Get "HANDLE-NEVER-RECEIVED"; Get "HANDLE-TIMEOUT-TYPE"; Get "INIT-VALUE"; Get "TIMEOUT-SUBSTITUTION-VALUE"].
(** _read_nonqueued_receiver_com_spec, reader.py:3978-3989 *)
Definition steps_nonqueued_receiver_com_spec (v : N) : list access := steps_receiver_com_spec v ++ steps_nonqueued_receiver_com_spec_group v.
(** _read_nv_require_com_spec, reader.py:4030-4049 *)
Definition steps_nv_require_com_spec (v : N) : list access := [Get "INIT-VALUE"; Get "VARIABLE-REF"].
(** _read_parameter_require_com_spec, reader.py:4051-4072 *)
Definition steps_parameter_require_com_spec (v : N) : list access := [Get "INIT-VALUE"; Get "PARAMETER-REF"].
(** _read_mode_switch_receiver_com_spec, reader.py:4074-4093 *)
Definition steps_mode_switch_receiver_com_spec (v : N) : list access := [Get "ENHANCED-MODE-API"; Get "MODE-GROUP-REF"; Get "SUPPORTS-ASYNCHRONOUS-MODE-SWITCH"].
(** _read_client_com_spec_group, reader.py:4108-4126 *)
Definition steps_client_com_spec_group (v : N) : list access := [Skip "CLIENT-INTENT"; Get "END-TO-END-CALL-RESPONSE-TIMEOUT"; Skip "GETTER-REF"; Get "OPERATION-REF"; Skip "SETTER-REF"; Get "TRANSFORMATION-COM-SPEC-PROPSS"].
(** _read_client_com_spec, reader.py:4095-4106 *)
Definition steps_client_com_spec (v : N) : list access := steps_client_com_spec_group v.
(** _read_provide_port_prototype_group, reader.py:4162-4174 *)
Definition steps_provide_port_prototype_group (v : N) : list access := [Get "PROVIDED-COM-SPECS"; Get "PROVIDED-INTERFACE-TREF"].
(** _read_provide_port_prototype, reader.py:4148-4160 *)
Definition steps_provide_port_prototype (v : N) : list access := steps_referrable v ++ steps_multi_language_referrable v ++ steps_identifiable v ++ steps_provide_port_prototype_group v.
(** _read_required_port_prototype_group, reader.py:4190-4205 *)
Definition steps_required_port_prototype_group (v : N) : list access := [Get "REQUIRED-COM-SPECS"; Get "MAY-BE-UNCONNECTED"; Get "REQUIRED-INTERFACE-TREF"].
(** _read_require_port_prototype, reader.py:4176-4188 *)
Definition steps_require_port_prototype (v : N) : list access := steps_referrable v ++ steps_multi_language_referrable v ++ steps_identifiable v ++ steps_required_port_prototype_group v.
(** _read_pr_port_prototype_group, reader.py:4221-4239 *)
Definition steps_pr_port_prototype_group (v : N) : list access := [Get "PROVIDED-COM-SPECS"; Get "REQUIRED-COM-SPECS"; Get "PROVIDED-REQUIRED-INTERFACE-TREF"].
(** _read_pr_port_prototype, reader.py:4207-4219 *)
Definition steps_pr_port_prototype (v : N) : list access := steps_referrable v ++ steps_multi_language_referrable v ++ steps_identifiable v ++ steps_pr_port_prototype_group v.
(** _read_sw_component_type, reader.py:4241-4260 *)
Definition steps_sw_component_type (v : N) : list access := [Skip "SW-COMPONENT-DOCUMENTATIONS"; Skip "CONSISTENCY-NEEDSS"; Get "PORTS"; Skip "PORT_GROUPS"; Skip "SWC-MAPPING-CONSTRAINT-REFS"; Skip "UNIT-GROUP-REFS"].
(** _read_atomic_sw_component_type, reader.py:4262-4274 *)
Definition steps_atomic_sw_component_type (v : N) : list access := [Get "INTERNAL-BEHAVIORS"; Get "SYMBOL-PROPS"].
(** _read_application_sw_component_type, reader.py:4276-4291 *)
Definition steps_application_sw_component_type (v : N) : list access := steps_referrable v ++ steps_multi_language_referrable v ++ steps_identifiable v ++ steps_sw_component_type v ++ steps_atomic_sw_component_type v.
(** _read_sw_component_prototype, reader.py:4293-4308 *)
Definition steps_sw_component_prototype (v : N) : list access := steps_referrable v ++ steps_multi_language_referrable v ++ steps_identifiable v ++ steps_sw_component_type v ++ [Get "TYPE-TREF"].
(** _read_port_in_composition_type_instance_ref, reader.py:4310-4334 *)
Definition steps_port_in_composition_type_instance_ref (v : N) (tag : string) : list access := [Get "CONTEXT-COMPONENT-REF"] ++ (if provider_tag tag then [Get "TARGET-P-PORT-REF"] else if requester_tag tag then [Get "TARGET-R-PORT-REF"] else []).
(** _read_sw_connector, reader.py:4356-4361 *)
Definition steps_sw_connector (v : N) : list access := [Skip "MAPPING-REF"; Skip "VARIATION-POINT"].
(** _read_assembly_sw_connector, reader.py:4336-4354 *)
Definition steps_assembly_sw_connector (v : N) : list access := steps_referrable v ++ steps_multi_language_referrable v ++ steps_identifiable v ++ steps_sw_connector v ++ [Get "PROVIDER-IREF"; Get "REQUESTER-IREF"].
(** _read_delegation_sw_connector, reader.py:4363-4384 *)
Definition steps_delegation_sw_connector (v : N) : list access := steps_referrable v ++ steps_multi_language_referrable v ++ steps_identifiable v ++ steps_sw_connector v ++ [Get "INNER-PORT-IREF"; Get "OUTER-PORT-REF"].
(** _read_pass_through_sw_connector, reader.py:4386-4405 *)
Definition steps_pass_through_sw_connector (v : N) : list access := steps_referrable v ++ steps_multi_language_referrable v ++ steps_identifiable v ++ steps_sw_connector v ++ [Get "PROVIDED-OUTER-PORT-REF"; Get "REQUIRED-OUTER-PORT-REF"; Skip "SERVICE-INTERFACE-ELEMENT-MAPPING-REFS"].
(** _read_composition_sw_component_type_group, reader.py:4424-4447 *)
Definition steps_composition_sw_component_type_group (v : N) : list access := [Get "COMPONENTS"; Get "CONNECTORS"; Skip "CONSTANT-VALUE-MAPPING-REFS"; Skip "DATA-TYPE-MAPPING-REFS"; Skip "INSTANTIATION-RTE-EVENT-PROPSS"].
(** _read_composition_sw_component_type, reader.py:4407-4422 *)
Definition steps_composition_sw_component_type (v : N) : list access := steps_referrable v ++ steps_multi_language_referrable v ++ steps_identifiable v ++ steps_sw_component_type v ++ steps_composition_sw_component_type_group v.
(** _read_implementation, reader.py:1562-1585 *)
Definition steps_implementation (v : N) : list access := [Skip "BUILD-ACTION-MANIFESTS"; Get "CODE-DESCRIPTORS"; Skip "COMPILERS"; Skip "GENERATED-ARTIFACTS"; Skip "HW-ELEMENT-REFS"; Skip "LINKERS"; Skip "MC-SUPPORT"; Skip "PROGRAMMING-LANGUAGE"; Skip "REQUIRED-ARTIFACTS"; Skip "REQUIRED-GENERATOR-TOOLS"; Skip "RESOURCE-CONSUMPTION"; Skip "SW-VERSION"; Skip "SWC-BSW-MAPPING-REF"; Skip "USED-CODE-GENERATOR"; Skip "VENDOR-ID"].
(** _read_swc_implementation_group, reader.py:4466-4476 *)
Definition steps_swc_implementation_group (v : N) : list access := [Get "BEHAVIOR-REF"; Skip "PER-INSTANCE-MEMORY-SIZES"; Get "REQUIRED-RTE-VENDOR"].
(** _read_swc_implementation, reader.py:4449-4464 *)
Definition steps_swc_implementation (v : N) : list access := steps_referrable v ++ steps_multi_language_referrable v ++ steps_identifiable v ++ steps_implementation v ++ steps_swc_implementation_group v.
(** _read_p_mode_group_in_atomic_swc_instance_ref, reader.py:4478-4495 *)
Definition steps_p_mode_group_in_atomic_swc_instance_ref (v : N) : list access := [Get "CONTEXT-P-PORT-REF"; Get "TARGET-MODE-GROUP-REF"].
(** _read_p_operation_in_atomic_swc_instance_ref, reader.py:4497-4513 *)
Definition steps_p_operation_in_atomic_swc_instance_ref (v : N) : list access := [Get "CONTEXT-P-PORT-REF"; Get "TARGET-PROVIDED-OPERATION-REF"].
(** _read_p_trigger_in_atomic_swc_instance_ref, reader.py:4515-4532 *)
Definition steps_p_trigger_in_atomic_swc_instance_ref (v : N) : list access := [Get "CONTEXT-P-PORT-REF"; Get "TARGET-TRIGGER-REF"].
(** _read_r_mode_in_atomic_swc_instance_ref, reader.py:4534-4554 *)
Definition steps_r_mode_in_atomic_swc_instance_ref (v : N) : list access := [Get "CONTEXT-PORT-REF"; Get "CONTEXT-MODE-DECLARATION-GROUP-PROTOTYPE-REF"; Get "TARGET-MODE-DECLARATION-REF"].
(** _read_r_mode_group_in_atomic_swc_instance_ref, reader.py:4556-4572 *)
Definition steps_r_mode_group_in_atomic_swc_instance_ref (v : N) : list access := [Get "CONTEXT-R-PORT-REF"; Get "TARGET-MODE-GROUP-REF"].
(** _read_r_operation_in_atomic_swc_instance_ref, reader.py:4574-4590 *)
Definition steps_r_operation_in_atomic_swc_instance_ref (v : N) : list access := [Get "CONTEXT-R-PORT-REF"; Get "TARGET-REQUIRED-OPERATION-REF"].
(** _read_r_variable_in_atomic_swc_instance_ref, reader.py:4592-4608 *)
Definition steps_r_variable_in_atomic_swc_instance_ref (v : N) : list access := [Get "CONTEXT-R-PORT-REF"; Get "TARGET-DATA-ELEMENT-REF"].
(** _read_r_trigger_in_atomic_swc_instance_ref, reader.py:4610-4626 *)
Definition steps_r_trigger_in_atomic_swc_instance_ref (v : N) : list access := [Get "CONTEXT-R-PORT-REF"; Get "TARGET-TRIGGER-REF"].
(** _read_variable_in_impl_data_instance_ref_group, reader.py:4643-4661 *)
Definition steps_variable_in_impl_data_instance_ref_group (v : N) : list access := [Get "PORT-PROTOTYPE-REF"; Get "ROOT-VARIABLE-DATA-PROTOTYPE-REF"; Get "CONTEXT-DATA-PROTOTYPE-REFS"; Get "TARGET-DATA-PROTOTYPE-REF"].
(** _read_variable_in_impl_data_instance_ref, reader.py:4630-4641 *)
Definition steps_variable_in_impl_data_instance_ref (v : N) : list access := steps_variable_in_impl_data_instance_ref_group v.
(** _read_variable_in_atomic_swc_type_instance_ref, reader.py:4663-4690 *)
Definition steps_variable_in_atomic_swc_type_instance_ref (v : N) : list access := [Get "PORT-PROTOTYPE-REF"; Get "ROOT-VARIABLE-DATA-PROTOTYPE-REF"; Skip "CONTEXT-DATA-PROTOTYPE-REF"; Get "TARGET-DATA-PROTOTYPE-REF"].
(** _read_variable_access_group, reader.py:4706-4715 *)
Definition steps_variable_access_group (v : N) : list access := [Get "ACCESSED-VARIABLE"; Get "SCOPE"].
(** _read_variable_access, reader.py:4692-4704 *)
Definition steps_variable_access (v : N) : list access := steps_referrable v ++ steps_multi_language_referrable v ++ steps_identifiable v ++ steps_variable_access_group v.
(** _read_autosar_variable_ref_group, reader.py:4730-4743 *)
Definition steps_autosar_variable_ref_group (v : N) : list access := [Get "AUTOSAR-VARIABLE-IN-IMPL-DATATYPE"; Get "AUTOSAR-VARIABLE-IREF"; Get "LOCAL-VARIABLE-REF"].
(** _read_autosar_variable_ref, reader.py:4717-4728 *)
Definition steps_autosar_variable_ref (v : N) : list access := steps_autosar_variable_ref_group v.
(** _read_executable_entity_activation_reason, reader.py:4745-4760 *)
Definition steps_executable_entity_activation_reason (v : N) : list access := steps_referrable v ++ steps_implementation_props v ++ [Get "BIT-POSITION"].
(** _read_exclusive_area_ref_conditional, reader.py:4762-4776 *)
Definition steps_exclusive_area_ref_conditional (v : N) : list access := [Get "EXCLUSIVE-AREA-REF"; Skip "VARIATION-POINT"].
(** _read_runnable_entity_argument, reader.py:4778-4789 *)
Definition steps_runnable_entity_argument (v : N) : list access := [Get "SYMBOL"].
(** _read_abstract_access_point, reader.py:4791-4797 *)
Definition steps_abstract_access_point (v : N) : list access := [Get "RETURN-VALUE-PROVISION"].
(** _read_server_call_point, reader.py:4799-4809 *)
Definition steps_server_call_point (v : N) : list access := [Get "OPERATION-IREF"; Get "TIMEOUT"; Skip "VARIATION-POINT"].
(** _read_async_server_call_point, reader.py:4811-4824 *)
Definition steps_async_server_call_point (v : N) : list access := steps_referrable v ++ steps_multi_language_referrable v ++ steps_identifiable v ++ steps_abstract_access_point v ++ steps_server_call_point v.
(** _read_sync_server_call_point, reader.py:4826-4842 *)
Definition steps_sync_server_call_point (v : N) : list access := steps_referrable v ++ steps_multi_language_referrable v ++ steps_identifiable v ++ steps_abstract_access_point v ++ steps_server_call_point v ++ [Get "CALLED-FROM-WITHIN-EXCLUSIVE-AREA-REF"].
(** _read_async_server_call_result_point_group, reader.py:4861-4867 *)
Definition steps_async_server_call_result_point_group (v : N) : list access := [Get "ASYNCHRONOUS-SERVER-CALL-POINT-REF"].
(** _read_async_server_call_result_point, reader.py:4844-4859 *)
Definition steps_async_server_call_result_point (v : N) : list access := steps_referrable v ++ steps_multi_language_referrable v ++ steps_identifiable v ++ steps_abstract_access_point v ++ steps_async_server_call_result_point_group v.
(** _read_external_triggering_point_ident, reader.py:4869-4882 *)
Definition steps_external_triggering_point_ident (v : N) : list access := steps_referrable v ++ steps_multi_language_referrable v ++ steps_identifiable v ++ steps_abstract_access_point v.
(** _read_external_triggering_point, reader.py:4884-4899 *)
Definition steps_external_triggering_point (v : N) : list access := [Get "IDENT"; Get "TRIGGER-IREF"; Skip "VARIATION-POINT"].
(** _read_internal_triggering_point, reader.py:4901-4917 *)
Definition steps_internal_triggering_point (v : N) : list access := steps_referrable v ++ steps_multi_language_referrable v ++ steps_identifiable v ++ steps_abstract_access_point v ++ [Get "SW-IMPL-POLICY"; Skip "VARIATION-POINT"].
(** _read_mode_access_point_ident, reader.py:4919-4933 *)
Definition steps_mode_access_point_ident (v : N) : list access := steps_referrable v ++ steps_multi_language_referrable v ++ steps_identifiable v ++ steps_abstract_access_point v ++ steps_async_server_call_result_point_group v.
(** _read_mode_access_point, reader.py:4935-4954 *)
Definition steps_mode_access_point (v : N) : list access := [Get "IDENT"; Get "MODE-GROUP-IREF"; Skip "VARIATION-POINT"].
(** _read_mode_switch_point, reader.py:4956-4972 *)
Definition steps_mode_switch_point (v : N) : list access := steps_referrable v ++ steps_multi_language_referrable v ++ steps_identifiable v ++ steps_abstract_access_point v ++ [Get "MODE-GROUP-IREF"; Skip "VARIATION-POINT"].
(** _read_parameter_in_atomic_swc_type_instance_ref, reader.py:4974-4998 *)
Definition steps_parameter_in_atomic_swc_type_instance_ref (v : N) : list access := [Get "PORT-PROTOTYPE-REF"; Get "ROOT-PARAMETER-DATA-PROTOTYPE-REF"; Get "CONTEXT-DATA-PROTOTYPE-REF"; Get "TARGET-DATA-PROTOTYPE-REF"; Get "MODE-GROUP-IREF"; Skip "VARIATION-POINT"].
(** _read_autosar_parameter_ref, reader.py:5000-5014 *)
Definition steps_autosar_parameter_ref (v : N) : list access := [Get "AUTOSAR-PARAMETER-IREF"; Get "LOCAL-PARAMETER-REF"].
(** _read_parameter_access_group, reader.py:5031-5041 *)
Definition steps_parameter_access_group (v : N) : list access := [Get "ACCESSED-PARAMETER"; Get "SW-DATA-DEF-PROPS"; Skip "VARIATION-POINT"].
(** _read_parameter_access, reader.py:5016-5029 *)
Definition steps_parameter_access (v : N) : list access := steps_referrable v ++ steps_multi_language_referrable v ++ steps_identifiable v ++ steps_abstract_access_point v ++ steps_parameter_access_group v.
(** _read_wait_point_group, reader.py:5057-5066 *)
Definition steps_wait_point_group (v : N) : list access := [Get "TIMEOUT"; Get "TRIGGER-REF"].
(** _read_wait_point, reader.py:5043-5055 *)
Definition steps_wait_point (v : N) : list access := steps_referrable v ++ steps_multi_language_referrable v ++ steps_identifiable v ++ steps_wait_point_group v.
(** _read_executable_entity, reader.py:5068-5126 *)
Definition steps_executable_entity (v : N) : list access := [Get "ACTIVATION-REASONS"] ++ (if v <? 50 then [Get "CAN-ENTER-EXCLUSIVE-AREA-REFS"] else [Get "CAN-ENTERS"]) ++ [Get "EXCLUSIVE-AREA-NESTING-ORDER-REFS"; Get "MINIMUM-START-INTERVAL"; Get "REENTRANCY-LEVEL"] ++ (if v <? 50 then [Get "RUNS-INSIDE-EXCLUSIVE-AREA-REFS"] else [Get "RUNS-INSIDES"]) ++ [Get "SW-ADDR-METHOD-REF"].
(** _read_runnable_entity_group, reader.py:5143-5252 *)
Definition steps_runnable_entity_group (v : N) : list access := [Get "ARGUMENTS"; Get "ASYNCHRONOUS-SERVER-CALL-RESULT-POINTS"; Get "CAN-BE-INVOKED-CONCURRENTLY"; Get "DATA-READ-ACCESSS"; Get "DATA-RECEIVE-POINT-BY-ARGUMENTS"; Get "DATA-RECEIVE-POINT-BY-VALUES"; Get "DATA-SEND-POINTS"; Get "DATA-WRITE-ACCESSS"; Get "EXTERNAL-TRIGGERING-POINTS"; Get "INTERNAL-TRIGGERING-POINTS"; Get "MODE-ACCESS-POINTS"; Get "MODE-SWITCH-POINTS"; Get "PARAMETER-ACCESSS"; Get "READ-LOCAL-VARIABLES"; Get "SERVER-CALL-POINTS"; Get "SYMBOL"; Get "WAIT-POINTS"; Get "WRITTEN-LOCAL-VARIABLES"; Skip "VARIATION-POINT"].
(** _read_runnable_entity, reader.py:5128-5141 *)
Definition steps_runnable_entity (v : N) : list access := steps_referrable v ++ steps_multi_language_referrable v ++ steps_identifiable v ++ steps_executable_entity v ++ steps_runnable_entity_group v.
(** _read_rte_event_group, reader.py:5254-5267 *)
Definition steps_rte_event_group (v : N) : list access := [Get "DISABLED-MODE-IREFS"; Get "START-ON-EVENT-REF"; Skip "VARIATION-POINT"].
(** _read_async_server_call_returns_event, reader.py:5269-5286 *)
Definition steps_async_server_call_returns_event (v : N) : list access := steps_referrable v ++ steps_multi_language_referrable v ++ steps_identifiable v ++ steps_rte_event_group v ++ [Get "EVENT-SOURCE-REF"].
(** _read_background_event, reader.py:5288-5302 *)
Definition steps_background_event (v : N) : list access := steps_referrable v ++ steps_multi_language_referrable v ++ steps_identifiable v ++ steps_rte_event_group v.
(** _read_data_receive_error_event, reader.py:5304-5321 *)
Definition steps_data_receive_error_event (v : N) : list access := steps_referrable v ++ steps_multi_language_referrable v ++ steps_identifiable v ++ steps_rte_event_group v ++ [Get "DATA-IREF"].
(** _read_data_received_event, reader.py:5323-5340 *)
Definition steps_data_received_event (v : N) : list access := steps_referrable v ++ steps_multi_language_referrable v ++ steps_identifiable v ++ steps_rte_event_group v ++ [Get "DATA-IREF"].
(** _read_data_send_completed_event, reader.py:5342-5359 *)
Definition steps_data_send_completed_event (v : N) : list access := steps_referrable v ++ steps_multi_language_referrable v ++ steps_identifiable v ++ steps_rte_event_group v ++ [Get "EVENT-SOURCE-REF"].
(** _read_data_write_completed_event, reader.py:5361-5378 *)
Definition steps_data_write_completed_event (v : N) : list access := steps_referrable v ++ steps_multi_language_referrable v ++ steps_identifiable v ++ steps_rte_event_group v ++ [Get "EVENT-SOURCE-REF"].
(** _read_external_trigger_occured_event, reader.py:5380-5397 *)
Definition steps_external_trigger_occured_event (v : N) : list access := steps_referrable v ++ steps_multi_language_referrable v ++ steps_identifiable v ++ steps_rte_event_group v ++ [Get "TRIGGER-IREF"].
(** _read_init_event, reader.py:5399-5413 *)
Definition steps_init_event (v : N) : list access := steps_referrable v ++ steps_multi_language_referrable v ++ steps_identifiable v ++ steps_rte_event_group v.
(** _read_internal_trigger_occured_event, reader.py:5415-5432 *)
Definition steps_internal_trigger_occured_event (v : N) : list access := steps_referrable v ++ steps_multi_language_referrable v ++ steps_identifiable v ++ steps_rte_event_group v ++ [Get "EVENT-SOURCE-REF"].
(** _read_mode_switched_ack_event, reader.py:5434-5451 *)
Definition steps_mode_switched_ack_event (v : N) : list access := steps_referrable v ++ steps_multi_language_referrable v ++ steps_identifiable v ++ steps_rte_event_group v ++ [Get "EVENT-SOURCE-REF"].
(** _read_operation_invoked_event, reader.py:5453-5470 *)
Definition steps_operation_invoked_event (v : N) : list access := steps_referrable v ++ steps_multi_language_referrable v ++ steps_identifiable v ++ steps_rte_event_group v ++ [Get "OPERATION-IREF"].
(** _read_swc_mode_manager_error_event, reader.py:5472-5489 *)
Definition steps_swc_mode_manager_error_event (v : N) : list access := steps_referrable v ++ steps_multi_language_referrable v ++ steps_identifiable v ++ steps_rte_event_group v ++ [Get "MODE-GROUP-IREF"].
(** _read_swc_mode_switch_event_group, reader.py:5508-5527 *)
Definition steps_swc_mode_switch_event_group (v : N) : list access := [Get "ACTIVATION"; Get "MODE-IREFS"].
(** _read_swc_mode_switch_event, reader.py:5491-5506 *)
Definition steps_swc_mode_switch_event (v : N) : list access := steps_referrable v ++ steps_multi_language_referrable v ++ steps_identifiable v ++ steps_rte_event_group v ++ steps_swc_mode_switch_event_group v.
(** _read_timing_event, reader.py:5529-5549 *)
Definition steps_timing_event (v : N) : list access := steps_referrable v ++ steps_multi_language_referrable v ++ steps_identifiable v ++ steps_rte_event_group v ++ [Get "OFFSET"; Get "PERIOD"].
(** _read_transformer_hard_error_event_group, reader.py:5568-5580 *)
Definition steps_transformer_hard_error_event_group (v : N) : list access := [Get "OPERATION-IREF"; Get "REQUIRED-TRIGGER-IREF"; Get "TRIGGER-IREF"].
(** _read_transformer_hard_error_event, reader.py:5551-5566 *)
Definition steps_transformer_hard_error_event (v : N) : list access := steps_referrable v ++ steps_multi_language_referrable v ++ steps_identifiable v ++ steps_rte_event_group v ++ steps_transformer_hard_error_event_group v.
(** _read_port_defined_argument_value, reader.py:5582-5603 *)
Definition steps_port_defined_argument_value (v : N) : list access := [Get "VALUE"; Get "VALUE-TYPE-TREF"].
(** _read_communication_buffer_locking, reader.py:5605-5618 *)
Definition steps_communication_buffer_locking (v : N) : list access := [Get "SUPPORT-BUFFER-LOCKING"].
(** _read_port_api_option_group, reader.py:5633-5668 *)
Definition steps_port_api_option_group (v : N) : list access := [Get "ENABLE-TAKE-ADDRESS"; Get "ERROR-HANDLING"; Get "INDIRECT-API"; Get "PORT-ARG-VALUES"; Get "PORT-REF"; Get "PORT-REF"; Get "SUPPORTED-FEATURES"; Get "TRANSFORMER-STATUS-FORWARDING"].
(** _read_port_api_option, reader.py:5620-5631 *)
Definition steps_port_api_option (v : N) : list access := steps_port_api_option_group v.
(** _read_exclusive_area, reader.py:5670-5680 *)
Definition steps_exclusive_area (v : N) : list access := steps_referrable v ++ steps_multi_language_referrable v ++ steps_identifiable v.
(** _read_internal_behavior_group, reader.py:5697-5717 *)
Definition steps_internal_behavior_group (v : N) : list access := [Skip "CONSTANT-MEMORYS"; Skip "CONSTANT-VALUE-MAPPING-REFS"; Get "DATA-TYPE-MAPPING-REFS"; Get "EXCLUSIVE-AREAS"; Skip "EXCLUSIVE-AREA-NESTING-ORDERS"; Skip "STATIC-MEMORYS"].
(** _read_swc_internal_behavior_group, reader.py:5719-5756 *)
Definition steps_swc_internal_behavior_group (v : N) : list access := [Skip "AR-TYPED-PER-INSTANCE-MEMORYS"; Get "EVENTS"; Skip "EXCLUSIVE-AREA-POLICYS"; Skip "EXPLICIT-INTER-RUNNABLE-VARIABLES"; Skip "HANDLE-TERMINATION-AND-RESTART"; Skip "INCLUDED-DATA-TYPE-SETS"; Skip "INCLUDED-MODE-DECLARATION-GROUP-SETS"; Skip "INSTANTIATION-DATA-DEF-PROPSS"; Skip "PER-INSTANCE-MEMORYS"; Skip "PER-INSTANCE-PARAMETERS"; Skip "PORT-API-OPTIONS"; Get "PORT-API-OPTIONS"; Get "RUNNABLES"; Skip "SERVICE-DEPENDENCYS"; Skip "SHARED-PARAMETERS"; Skip "SUPPORTS-MULTIPLE-INSTANTIATION"; Skip "VARIATION-POINT-PROXYS"; Skip "VARIATION-POINT"].
(** _read_swc_internal_behavior, reader.py:5682-5695 *)
Definition steps_swc_internal_behavior (v : N) : list access := steps_referrable v ++ steps_multi_language_referrable v ++ steps_identifiable v ++ steps_internal_behavior_group v ++ steps_swc_internal_behavior_group v.
(** The readers of value specifications are chosen by the name of the element: _read_value_specification_element, reader.py:3005-3015 *)
Definition steps_value_specification_element (v : N) (tag : string) : list access :=
  if String.eqb tag "TEXT-VALUE-SPECIFICATION" then steps_text_value_specification v else
  if String.eqb tag "NUMERICAL-VALUE-SPECIFICATION" then steps_numerical_value_specification v else
  if String.eqb tag "NOT-AVAILABLE-VALUE-SPECIFICATION" then steps_not_available_value_specification v else
  if String.eqb tag "ARRAY-VALUE-SPECIFICATION" then steps_array_value_specification v else
  if String.eqb tag "RECORD-VALUE-SPECIFICATION" then steps_record_value_specification v else
  if String.eqb tag "APPLICATION-VALUE-SPECIFICATION" then steps_application_value_specification v else
  if String.eqb tag "CONSTANT-REFERENCE" then steps_constant_reference v else
  [].

(** ** The methods *)
(** reader.py:537-550 *)
Definition method_read_admin_data : method := mkMethod "_read_admin_data" (fun _ => read_admin_data) (fun v _ => steps_admin_data v) [] false.
(** reader.py:621-630 *)
Definition method_read_package : method := mkMethod "_read_package" (fun v => read_package v false) (fun v _ => steps_package v) [] true.
(** reader.py:1146-1159 *)
Definition method_read_compu_method : method := mkMethod "_read_compu_method" read_compu_method (fun v _ => steps_compu_method v) [] true.
(** reader.py:1180-1195 *)
Definition method_read_computation : method := mkMethod "_read_computation" read_computation (fun v _ => steps_computation v) [] true.
(** reader.py:1208-1252 *)
Definition method_read_compu_scale : method := mkMethod "_read_compu_scale" read_compu_scale (fun v _ => steps_compu_scale v) [] true.
(** reader.py:1283-1298 *)
Definition method_read_compu_rational : method := mkMethod "_read_compu_rational" read_compu_rational (fun v _ => steps_compu_rational v) [] true.
(** reader.py:1314-1327 *)
Definition method_read_data_constraint : method := mkMethod "_read_data_constraint" read_data_constraint (fun v _ => steps_data_constraint v) [] true.
(** reader.py:1341-1358 *)
Definition method_read_data_constraint_rule : method := mkMethod "_read_data_constraint_rule" read_data_constraint_rule (fun v _ => steps_data_constraint_rule v) [] false.
(** reader.py:1360-1369 *)
Definition method_read_internal_constraint : method := mkMethod "_read_internal_constraint" read_internal_constraint (fun v _ => steps_internal_constraint v) [] false.
(** reader.py:1371-1383 *)
Definition method_read_physical_constraint : method := mkMethod "_read_physical_constraint" read_physical_constraint (fun v _ => steps_physical_constraint v) [] false.
(** reader.py:1426-1450 *)
Definition method_read_scale_constraint : method := mkMethod "_read_scale_constraint" read_scale_constraint (fun v _ => steps_scale_constraint v) [] false.
(** reader.py:1454-1467 *)
Definition method_read_unit : method := mkMethod "_read_unit" read_unit (fun v _ => steps_unit v) [] true.
(** reader.py:1489-1518 *)
Definition method_read_data_filter : method := mkMethod "_read_data_filter" read_data_filter (fun v _ => steps_data_filter v) [] true.
(** reader.py:1531-1540 *)
Definition method_read_autosar_engineering_object : method := mkMethod "_read_autosar_engineering_object" read_autosar_engineering_object (fun v _ => steps_autosar_engineering_object v) [] true.
(** reader.py:1542-1560 *)
Definition method_read_code : method := mkMethod "_read_code" read_code (fun v _ => steps_code v) [] true.
(** reader.py:1589-1602 *)
Definition method_read_sw_addr_method : method := mkMethod "_read_sw_addr_method" read_sw_addr_method (fun v _ => steps_sw_addr_method v) [] true.
(** reader.py:1614-1627 *)
Definition method_read_sw_base_type : method := mkMethod "_read_sw_base_type" read_sw_base_type (fun v _ => steps_sw_base_type v) [] true.
(** reader.py:1655-1669 *)
Definition method_read_sw_bit_representation : method := mkMethod "_read_sw_bit_representation" read_sw_bit_representation (fun v _ => steps_sw_bit_representation v) [] true.
(** reader.py:1671-1682 *)
Definition method_read_sw_data_def_props : method := mkMethod "_read_sw_data_def_props" read_sw_data_def_props (fun v _ => steps_sw_data_def_props v) [] false.
(** reader.py:1697-1708 *)
Definition method_read_sw_data_def_props_conditional : method := mkMethod "_read_sw_data_def_props_conditional" read_sw_data_def_props_conditional (fun v _ => steps_sw_data_def_props_conditional v) [] true.
(** reader.py:1785-1806 *)
Definition method_read_sw_text_props : method := mkMethod "_read_sw_text_props" read_sw_text_props (fun v _ => steps_sw_text_props v) [] true.
(** reader.py:1808-1826 *)
Definition method_read_sw_pointer_target_props : method := mkMethod "_read_sw_pointer_target_props" read_sw_pointer_target_props (fun v _ => steps_sw_pointer_target_props v) [] true.
(** reader.py:1828-1839 *)
Definition method_read_symbol_props : method := mkMethod "_read_symbol_props" read_symbol_props (fun v _ => steps_symbol_props v) [] true.
(** reader.py:1852-1866 *)
Definition method_read_implementation_data_type_element : method := mkMethod "_read_implementation_data_type_element" read_implementation_data_type_element (fun v _ => steps_implementation_data_type_element v) [] true.
(** reader.py:1901-1915 *)
Definition method_read_implementation_data_type : method := mkMethod "_read_implementation_data_type" read_implementation_data_type (fun v _ => steps_implementation_data_type v) [] true.
(** reader.py:1959-1974 *)
Definition method_read_application_primitive_data_type : method := mkMethod "_read_application_primitive_data_type" read_application_primitive_data_type (fun v _ => steps_application_primitive_data_type v) [] true.
(** reader.py:1998-2013 *)
Definition method_read_application_array_element : method := mkMethod "_read_application_array_element" read_application_array_element (fun v _ => steps_application_array_element v) [] true.
(** reader.py:2033-2048 *)
Definition method_read_application_record_element : method := mkMethod "_read_application_record_element" read_application_record_element (fun v _ => steps_application_record_element v) [] true.
(** reader.py:2059-2075 *)
Definition method_read_application_array_data_type : method := mkMethod "_read_application_array_data_type" read_application_array_data_type (fun v _ => steps_application_array_data_type v) [] true.
(** reader.py:2088-2104 *)
Definition method_read_application_record_data_type : method := mkMethod "_read_application_record_data_type" read_application_record_data_type (fun v _ => steps_application_record_data_type v) [] true.
(** reader.py:2117-2131 *)
Definition method_read_data_type_map : method := mkMethod "_read_data_type_map" read_data_type_map (fun v _ => steps_data_type_map v) [] false.
(** reader.py:2133-2147 *)
Definition method_read_data_type_mapping_set : method := mkMethod "_read_data_type_mapping_set" read_data_type_mapping_set (fun v _ => steps_data_type_mapping_set v) [] true.
(** reader.py:2180-2194 *)
Definition method_read_parameter_data_prototype : method := mkMethod "_read_parameter_data_prototype" read_parameter_data_prototype (fun v _ => steps_parameter_data_prototype v) [] true.
(** reader.py:2210-2224 *)
Definition method_read_variable_data_prototype : method := mkMethod "_read_variable_data_prototype" read_variable_data_prototype (fun v _ => steps_variable_data_prototype v) [] true.
(** reader.py:2240-2254 *)
Definition method_read_argument_data_prototype : method := mkMethod "_read_argument_data_prototype" read_argument_data_prototype (fun v _ => steps_argument_data_prototype v) [] true.
(** reader.py:2269-2283 *)
Definition method_read_mode_request_type_map : method := mkMethod "_read_mode_request_type_map" read_mode_request_type_map (fun v _ => steps_mode_request_type_map v) [] true.
(** reader.py:3017-3030 *)
Definition method_read_constant_specification : method := mkMethod "_read_constant_specification" read_constant_specification (fun v _ => steps_constant_specification v) [] true.
(** reader.py:3123-3133 *)
Definition method_read_sw_axis_cont : method := mkMethod "_read_sw_axis_cont" read_sw_axis_cont (fun v _ => steps_sw_axis_cont v) [] true.
(** reader.py:3162-3172 *)
Definition method_read_sw_value_cont : method := mkMethod "_read_sw_value_cont" read_sw_value_cont (fun v _ => steps_sw_value_cont v) [] true.
(** reader.py:3193-3209 *)
Definition method_read_mode_declaration : method := mkMethod "_read_mode_declaration" read_mode_declaration (fun v _ => steps_mode_declaration v) [] true.
(** reader.py:3211-3224 *)
Definition method_read_mode_error_behavior : method := mkMethod "_read_mode_error_behavior" read_mode_error_behavior (fun v _ => steps_mode_error_behavior v) [] false.
(** reader.py:3226-3238 *)
Definition method_read_mode_transition : method := mkMethod "_read_mode_transition" read_mode_transition (fun v _ => steps_mode_transition v) [] true.
(** reader.py:3251-3264 *)
Definition method_read_mode_declaration_group : method := mkMethod "_read_mode_declaration_group" read_mode_declaration_group (fun v _ => steps_mode_declaration_group v) [] true.
(** reader.py:3299-3314 *)
Definition method_read_mode_declaration_group_prototype : method := mkMethod "_read_mode_declaration_group_prototype" read_mode_declaration_group_prototype (fun v _ => steps_mode_declaration_group_prototype v) [] true.
(** reader.py:3342-3355 *)
Definition method_read_nv_data_interface : method := mkMethod "_read_nv_data_interface" read_nv_data_interface (fun v _ => steps_nv_data_interface v) [] true.
(** reader.py:3371-3384 *)
Definition method_read_parameter_interface : method := mkMethod "_read_parameter_interface" read_parameter_interface (fun v _ => steps_parameter_interface v) [] true.
(** reader.py:3400-3413 *)
Definition method_read_sender_receiver_interface : method := mkMethod "_read_sender_receiver_interface" read_sender_receiver_interface (fun v _ => steps_sender_receiver_interface v) [] true.
(** reader.py:3438-3451 *)
Definition method_read_invalidation_policy : method := mkMethod "_read_invalidation_policy" read_invalidation_policy (fun v _ => steps_invalidation_policy v) [] false.
(** reader.py:3453-3465 *)
Definition method_read_application_error : method := mkMethod "_read_application_error" read_application_error (fun v _ => steps_application_error v) [] true.
(** reader.py:3475-3487 *)
Definition method_read_client_server_operation : method := mkMethod "_read_client_server_operation" read_client_server_operation (fun v _ => steps_client_server_operation v) [] true.
(** reader.py:3519-3532 *)
Definition method_read_client_server_interface : method := mkMethod "_read_client_server_interface" read_client_server_interface (fun v _ => steps_client_server_interface v) [] true.
(** reader.py:3555-3570 *)
Definition method_read_mode_switch_interface : method := mkMethod "_read_mode_switch_interface" read_mode_switch_interface (fun v _ => steps_mode_switch_interface v) [] true.
(** reader.py:3574-3586 *)
Definition method_read_e2e_transformation_com_spec_props : method := mkMethod "_read_e2e_transformation_com_spec_props" read_e2e_transformation_com_spec_props (fun v _ => steps_e2e_transformation_com_spec_props v) [] true.
(** reader.py:3644-3658 *)
Definition method_read_e2e_profile_compatibility_props : method := mkMethod "_read_e2e_profile_compatibility_props" read_e2e_profile_compatibility_props (fun v _ => steps_e2e_profile_compatibility_props v) [] true.
(** reader.py:3670-3681 *)
Definition method_read_mode_switched_ack_request : method := mkMethod "_read_mode_switched_ack_request" read_mode_switched_ack_request (fun v _ => steps_mode_switched_ack_request v) [] true.
(** reader.py:3683-3703 *)
Definition method_read_mode_switch_sender_com_spec : method := mkMethod "_read_mode_switch_sender_com_spec" read_mode_switch_sender_com_spec (fun v _ => steps_mode_switch_sender_com_spec v) [] true.
(** reader.py:3705-3718 *)
Definition method_read_transmission_acknowledgement_request : method := mkMethod "_read_transmission_acknowledgement_request" read_transmission_acknowledgement_request (fun v _ => steps_transmission_acknowledgement_request v) [] true.
(** reader.py:3720-3739 *)
Definition method_read_tranmsission_com_spec_props : method := mkMethod "_read_tranmsission_com_spec_props" read_tranmsission_com_spec_props (fun v _ => steps_tranmsission_com_spec_props v) [] true.
(** reader.py:3767-3778 *)
Definition method_read_queued_sender_com_spec : method := mkMethod "_read_queued_sender_com_spec" read_queued_sender_com_spec (fun v _ => steps_queued_sender_com_spec v) [] true.
(** reader.py:3780-3792 *)
Definition method_read_nonqueued_sender_com_spec : method := mkMethod "_read_nonqueued_sender_com_spec" read_nonqueued_sender_com_spec (fun v _ => steps_nonqueued_sender_com_spec v) [] true.
(** reader.py:3810-3821 *)
Definition method_read_nv_provider_com_spec : method := mkMethod "_read_nv_provider_com_spec" read_nv_provider_com_spec (fun v _ => steps_nv_provider_com_spec v) [] true.
(** reader.py:3847-3868 *)
Definition method_read_parameter_provide_com_spec : method := mkMethod "_read_parameter_provide_com_spec" read_parameter_provide_com_spec (fun v _ => steps_parameter_provide_com_spec v) [] true.
(** reader.py:3870-3881 *)
Definition method_read_server_com_spec : method := mkMethod "_read_server_com_spec" read_server_com_spec (fun v _ => steps_server_com_spec v) [] true.
(** reader.py:3902-3917 *)
Definition method_read_reception_com_spec_props : method := mkMethod "_read_reception_com_spec_props" read_reception_com_spec_props (fun v _ => steps_reception_com_spec_props v) [] true.
(** reader.py:3964-3976 *)
Definition method_read_queued_receiver_com_spec : method := mkMethod "_read_queued_receiver_com_spec" read_queued_receiver_com_spec (fun v _ => steps_queued_receiver_com_spec v) [] true.
(** reader.py:3978-3989 *)
Definition method_read_nonqueued_receiver_com_spec : method := mkMethod "_read_nonqueued_receiver_com_spec" read_nonqueued_receiver_com_spec (fun v _ => steps_nonqueued_receiver_com_spec v) [] true.
(** reader.py:4030-4049 *)
Definition method_read_nv_require_com_spec : method := mkMethod "_read_nv_require_com_spec" read_nv_require_com_spec (fun v _ => steps_nv_require_com_spec v) [] true.
(** reader.py:4051-4072 *)
Definition method_read_parameter_require_com_spec : method := mkMethod "_read_parameter_require_com_spec" read_parameter_require_com_spec (fun v _ => steps_parameter_require_com_spec v) [] true.
(** reader.py:4074-4093 *)
Definition method_read_mode_switch_receiver_com_spec : method := mkMethod "_read_mode_switch_receiver_com_spec" read_mode_switch_receiver_com_spec (fun v _ => steps_mode_switch_receiver_com_spec v) [] true.
(** reader.py:4095-4106 *)
Definition method_read_client_com_spec : method := mkMethod "_read_client_com_spec" read_client_com_spec (fun v _ => steps_client_com_spec v) [] true.
(** reader.py:4148-4160 *)
Definition method_read_provide_port_prototype : method := mkMethod "_read_provide_port_prototype" read_provide_port_prototype (fun v _ => steps_provide_port_prototype v) [] true.
(** reader.py:4176-4188 *)
Definition method_read_require_port_prototype : method := mkMethod "_read_require_port_prototype" read_require_port_prototype (fun v _ => steps_require_port_prototype v) [] true.
(** reader.py:4207-4219 *)
Definition method_read_pr_port_prototype : method := mkMethod "_read_pr_port_prototype" read_pr_port_prototype (fun v _ => steps_pr_port_prototype v) [] true.
(** reader.py:4276-4291 *)
Definition method_read_application_sw_component_type : method := mkMethod "_read_application_sw_component_type" read_application_sw_component_type (fun v _ => steps_application_sw_component_type v) [] true.
(** reader.py:4293-4308 *)
Definition method_read_sw_component_prototype : method := mkMethod "_read_sw_component_prototype" read_sw_component_prototype (fun v _ => steps_sw_component_prototype v) [] true.
(** reader.py:4310-4334 *)
Definition method_read_port_in_composition_type_instance_ref : method := mkMethod "_read_port_in_composition_type_instance_ref" read_port_in_composition_type_instance_ref steps_port_in_composition_type_instance_ref [] true.
(** reader.py:4336-4354 *)
Definition method_read_assembly_sw_connector : method := mkMethod "_read_assembly_sw_connector" read_assembly_sw_connector (fun v _ => steps_assembly_sw_connector v) [] true.
(** reader.py:4363-4384 *)
Definition method_read_delegation_sw_connector : method := mkMethod "_read_delegation_sw_connector" read_delegation_sw_connector (fun v _ => steps_delegation_sw_connector v) [] true.
(** reader.py:4386-4405 *)
Definition method_read_pass_through_sw_connector : method := mkMethod "_read_pass_through_sw_connector" read_pass_through_sw_connector (fun v _ => steps_pass_through_sw_connector v) [] true.
(** reader.py:4407-4422 *)
Definition method_read_composition_sw_component_type : method := mkMethod "_read_composition_sw_component_type" read_composition_sw_component_type (fun v _ => steps_composition_sw_component_type v) [] true.
(** reader.py:4449-4464 *)
Definition method_read_swc_implementation : method := mkMethod "_read_swc_implementation" read_swc_implementation (fun v _ => steps_swc_implementation v) [] true.
(** reader.py:4478-4495 *)
Definition method_read_p_mode_group_in_atomic_swc_instance_ref : method := mkMethod "_read_p_mode_group_in_atomic_swc_instance_ref" read_p_mode_group_in_atomic_swc_instance_ref (fun v _ => steps_p_mode_group_in_atomic_swc_instance_ref v) [] false.
(** reader.py:4497-4513 *)
Definition method_read_p_operation_in_atomic_swc_instance_ref : method := mkMethod "_read_p_operation_in_atomic_swc_instance_ref" read_p_operation_in_atomic_swc_instance_ref (fun v _ => steps_p_operation_in_atomic_swc_instance_ref v) [] true.
(** reader.py:4515-4532 *)
Definition method_read_p_trigger_in_atomic_swc_instance_ref : method := mkMethod "_read_p_trigger_in_atomic_swc_instance_ref" read_p_trigger_in_atomic_swc_instance_ref (fun v _ => steps_p_trigger_in_atomic_swc_instance_ref v) [] true.
(** reader.py:4534-4554 *)
Definition method_read_r_mode_in_atomic_swc_instance_ref : method := mkMethod "_read_r_mode_in_atomic_swc_instance_ref" read_r_mode_in_atomic_swc_instance_ref (fun v _ => steps_r_mode_in_atomic_swc_instance_ref v) [] true.
(** reader.py:4556-4572 *)
Definition method_read_r_mode_group_in_atomic_swc_instance_ref : method := mkMethod "_read_r_mode_group_in_atomic_swc_instance_ref" read_r_mode_group_in_atomic_swc_instance_ref (fun v _ => steps_r_mode_group_in_atomic_swc_instance_ref v) [] false.
(** reader.py:4574-4590 *)
Definition method_read_r_operation_in_atomic_swc_instance_ref : method := mkMethod "_read_r_operation_in_atomic_swc_instance_ref" read_r_operation_in_atomic_swc_instance_ref (fun v _ => steps_r_operation_in_atomic_swc_instance_ref v) [] true.
(** reader.py:4592-4608 *)
Definition method_read_r_variable_in_atomic_swc_instance_ref : method := mkMethod "_read_r_variable_in_atomic_swc_instance_ref" read_r_variable_in_atomic_swc_instance_ref (fun v _ => steps_r_variable_in_atomic_swc_instance_ref v) [] true.
(** reader.py:4610-4626 *)
Definition method_read_r_trigger_in_atomic_swc_instance_ref : method := mkMethod "_read_r_trigger_in_atomic_swc_instance_ref" read_r_trigger_in_atomic_swc_instance_ref (fun v _ => steps_r_trigger_in_atomic_swc_instance_ref v) [] true.
(** reader.py:4630-4641 *)
Definition method_read_variable_in_impl_data_instance_ref : method := mkMethod "_read_variable_in_impl_data_instance_ref" read_variable_in_impl_data_instance_ref (fun v _ => steps_variable_in_impl_data_instance_ref v) [] true.
(** reader.py:4663-4690 *)
Definition method_read_variable_in_atomic_swc_type_instance_ref : method := mkMethod "_read_variable_in_atomic_swc_type_instance_ref" read_variable_in_atomic_swc_type_instance_ref (fun v _ => steps_variable_in_atomic_swc_type_instance_ref v) ["CONTEXT-DATA-PROTOTYPE-REF"] true.
(** reader.py:4692-4704 *)
Definition method_read_variable_access : method := mkMethod "_read_variable_access" read_variable_access (fun v _ => steps_variable_access v) [] true.
(** reader.py:4717-4728 *)
Definition method_read_autosar_variable_ref : method := mkMethod "_read_autosar_variable_ref" read_autosar_variable_ref (fun v _ => steps_autosar_variable_ref v) [] true.
(** reader.py:4745-4760 *)
Definition method_read_executable_entity_activation_reason : method := mkMethod "_read_executable_entity_activation_reason" read_executable_entity_activation_reason (fun v _ => steps_executable_entity_activation_reason v) [] true.
(** reader.py:4762-4776 *)
Definition method_read_exclusive_area_ref_conditional : method := mkMethod "_read_exclusive_area_ref_conditional" read_exclusive_area_ref_conditional (fun v _ => steps_exclusive_area_ref_conditional v) [] true.
(** reader.py:4778-4789 *)
Definition method_read_runnable_entity_argument : method := mkMethod "_read_runnable_entity_argument" read_runnable_entity_argument (fun v _ => steps_runnable_entity_argument v) [] true.
(** reader.py:4811-4824 *)
Definition method_read_async_server_call_point : method := mkMethod "_read_async_server_call_point" read_async_server_call_point (fun v _ => steps_async_server_call_point v) [] true.
(** reader.py:4826-4842 *)
Definition method_read_sync_server_call_point : method := mkMethod "_read_sync_server_call_point" read_sync_server_call_point (fun v _ => steps_sync_server_call_point v) [] true.
(** reader.py:4844-4859 *)
Definition method_read_async_server_call_result_point : method := mkMethod "_read_async_server_call_result_point" read_async_server_call_result_point (fun v _ => steps_async_server_call_result_point v) [] true.
(** reader.py:4869-4882 *)
Definition method_read_external_triggering_point_ident : method := mkMethod "_read_external_triggering_point_ident" read_external_triggering_point_ident (fun v _ => steps_external_triggering_point_ident v) [] false.
(** reader.py:4884-4899 *)
Definition method_read_external_triggering_point : method := mkMethod "_read_external_triggering_point" read_external_triggering_point (fun v _ => steps_external_triggering_point v) [] true.
(** reader.py:4901-4917 *)
Definition method_read_internal_triggering_point : method := mkMethod "_read_internal_triggering_point" read_internal_triggering_point (fun v _ => steps_internal_triggering_point v) [] true.
(** reader.py:4919-4933 *)
Definition method_read_mode_access_point_ident : method := mkMethod "_read_mode_access_point_ident" read_mode_access_point_ident (fun v _ => steps_mode_access_point_ident v) [] false.
(** reader.py:4935-4954 *)
Definition method_read_mode_access_point : method := mkMethod "_read_mode_access_point" read_mode_access_point (fun v _ => steps_mode_access_point v) [] true.
(** reader.py:4956-4972 *)
Definition method_read_mode_switch_point : method := mkMethod "_read_mode_switch_point" read_mode_switch_point (fun v _ => steps_mode_switch_point v) [] true.
(** reader.py:4974-4998 *)
Definition method_read_parameter_in_atomic_swc_type_instance_ref : method := mkMethod "_read_parameter_in_atomic_swc_type_instance_ref" read_parameter_in_atomic_swc_type_instance_ref (fun v _ => steps_parameter_in_atomic_swc_type_instance_ref v) [] true.
(** reader.py:5000-5014 *)
Definition method_read_autosar_parameter_ref : method := mkMethod "_read_autosar_parameter_ref" read_autosar_parameter_ref (fun v _ => steps_autosar_parameter_ref v) [] true.
(** reader.py:5016-5029 *)
Definition method_read_parameter_access : method := mkMethod "_read_parameter_access" read_parameter_access (fun v _ => steps_parameter_access v) [] true.
(** reader.py:5043-5055 *)
Definition method_read_wait_point : method := mkMethod "_read_wait_point" read_wait_point (fun v _ => steps_wait_point v) [] true.
(** reader.py:5128-5141 *)
Definition method_read_runnable_entity : method := mkMethod "_read_runnable_entity" read_runnable_entity (fun v _ => steps_runnable_entity v) [] true.
(** reader.py:5269-5286 *)
Definition method_read_async_server_call_returns_event : method := mkMethod "_read_async_server_call_returns_event" read_async_server_call_returns_event (fun v _ => steps_async_server_call_returns_event v) [] true.
(** reader.py:5288-5302 *)
Definition method_read_background_event : method := mkMethod "_read_background_event" read_background_event (fun v _ => steps_background_event v) [] true.
(** reader.py:5304-5321 *)
Definition method_read_data_receive_error_event : method := mkMethod "_read_data_receive_error_event" read_data_receive_error_event (fun v _ => steps_data_receive_error_event v) [] true.
(** reader.py:5323-5340 *)
Definition method_read_data_received_event : method := mkMethod "_read_data_received_event" read_data_received_event (fun v _ => steps_data_received_event v) [] true.
(** reader.py:5342-5359 *)
Definition method_read_data_send_completed_event : method := mkMethod "_read_data_send_completed_event" read_data_send_completed_event (fun v _ => steps_data_send_completed_event v) [] true.
(** reader.py:5361-5378 *)
Definition method_read_data_write_completed_event : method := mkMethod "_read_data_write_completed_event" read_data_write_completed_event (fun v _ => steps_data_write_completed_event v) [] true.
(** reader.py:5380-5397 *)
Definition method_read_external_trigger_occured_event : method := mkMethod "_read_external_trigger_occured_event" read_external_trigger_occured_event (fun v _ => steps_external_trigger_occured_event v) [] true.
(** reader.py:5399-5413 *)
Definition method_read_init_event : method := mkMethod "_read_init_event" read_init_event (fun v _ => steps_init_event v) [] true.
(** reader.py:5415-5432 *)
Definition method_read_internal_trigger_occured_event : method := mkMethod "_read_internal_trigger_occured_event" read_internal_trigger_occured_event (fun v _ => steps_internal_trigger_occured_event v) [] true.
(** reader.py:5434-5451 *)
Definition method_read_mode_switched_ack_event : method := mkMethod "_read_mode_switched_ack_event" read_mode_switched_ack_event (fun v _ => steps_mode_switched_ack_event v) [] true.
(** reader.py:5453-5470 *)
Definition method_read_operation_invoked_event : method := mkMethod "_read_operation_invoked_event" read_operation_invoked_event (fun v _ => steps_operation_invoked_event v) [] true.
(** reader.py:5472-5489 *)
Definition method_read_swc_mode_manager_error_event : method := mkMethod "_read_swc_mode_manager_error_event" read_swc_mode_manager_error_event (fun v _ => steps_swc_mode_manager_error_event v) [] true.
(** reader.py:5491-5506 *)
Definition method_read_swc_mode_switch_event : method := mkMethod "_read_swc_mode_switch_event" read_swc_mode_switch_event (fun v _ => steps_swc_mode_switch_event v) [] true.
(** reader.py:5529-5549 *)
Definition method_read_timing_event : method := mkMethod "_read_timing_event" read_timing_event (fun v _ => steps_timing_event v) [] true.
(** reader.py:5551-5566 *)
Definition method_read_transformer_hard_error_event : method := mkMethod "_read_transformer_hard_error_event" read_transformer_hard_error_event (fun v _ => steps_transformer_hard_error_event v) [] true.
(** reader.py:5582-5603 *)
Definition method_read_port_defined_argument_value : method := mkMethod "_read_port_defined_argument_value" read_port_defined_argument_value (fun v _ => steps_port_defined_argument_value v) [] true.
(** reader.py:5605-5618 *)
Definition method_read_communication_buffer_locking : method := mkMethod "_read_communication_buffer_locking" read_communication_buffer_locking (fun v _ => steps_communication_buffer_locking v) [] true.
(** reader.py:5620-5631 *)
Definition method_read_port_api_option : method := mkMethod "_read_port_api_option" read_port_api_option (fun v _ => steps_port_api_option v) [] true.
(** reader.py:5670-5680 *)
Definition method_read_exclusive_area : method := mkMethod "_read_exclusive_area" read_exclusive_area (fun v _ => steps_exclusive_area v) [] false.
(** reader.py:5682-5695 *)
Definition method_read_swc_internal_behavior : method := mkMethod "_read_swc_internal_behavior" read_swc_internal_behavior (fun v _ => steps_swc_internal_behavior v) [] true.
(** reader.py:3005-3015 *)
Definition method_read_value_specification_element : method := mkMethod "_read_value_specification_element" read_value_specification_element steps_value_specification_element [] true.
(** All of them: every method of Reader that makes a ChildElementMap *)
Definition methods : list method :=
  [method_read_admin_data;
   method_read_package;
   method_read_compu_method;
   method_read_computation;
   method_read_compu_scale;
   method_read_compu_rational;
   method_read_data_constraint;
   method_read_data_constraint_rule;
   method_read_internal_constraint;
   method_read_physical_constraint;
   method_read_scale_constraint;
   method_read_unit;
   method_read_data_filter;
   method_read_autosar_engineering_object;
   method_read_code;
   method_read_sw_addr_method;
   method_read_sw_base_type;
   method_read_sw_bit_representation;
   method_read_sw_data_def_props;
   method_read_sw_data_def_props_conditional;
   method_read_sw_text_props;
   method_read_sw_pointer_target_props;
   method_read_symbol_props;
   method_read_implementation_data_type_element;
   method_read_implementation_data_type;
   method_read_application_primitive_data_type;
   method_read_application_array_element;
   method_read_application_record_element;
   method_read_application_array_data_type;
   method_read_application_record_data_type;
   method_read_data_type_map;
   method_read_data_type_mapping_set;
   method_read_parameter_data_prototype;
   method_read_variable_data_prototype;
   method_read_argument_data_prototype;
   method_read_mode_request_type_map;
   method_read_constant_specification;
   method_read_sw_axis_cont;
   method_read_sw_value_cont;
   method_read_mode_declaration;
   method_read_mode_error_behavior;
   method_read_mode_transition;
   method_read_mode_declaration_group;
   method_read_mode_declaration_group_prototype;
   method_read_nv_data_interface;
   method_read_parameter_interface;
   method_read_sender_receiver_interface;
   method_read_invalidation_policy;
   method_read_application_error;
   method_read_client_server_operation;
   method_read_client_server_interface;
   method_read_mode_switch_interface;
   method_read_e2e_transformation_com_spec_props;
   method_read_e2e_profile_compatibility_props;
   method_read_mode_switched_ack_request;
   method_read_mode_switch_sender_com_spec;
   method_read_transmission_acknowledgement_request;
   method_read_tranmsission_com_spec_props;
   method_read_queued_sender_com_spec;
   method_read_nonqueued_sender_com_spec;
   method_read_nv_provider_com_spec;
   method_read_parameter_provide_com_spec;
   method_read_server_com_spec;
   method_read_reception_com_spec_props;
   method_read_queued_receiver_com_spec;
   method_read_nonqueued_receiver_com_spec;
   method_read_nv_require_com_spec;
   method_read_parameter_require_com_spec;
   method_read_mode_switch_receiver_com_spec;
   method_read_client_com_spec;
   method_read_provide_port_prototype;
   method_read_require_port_prototype;
   method_read_pr_port_prototype;
   method_read_application_sw_component_type;
   method_read_sw_component_prototype;
   method_read_port_in_composition_type_instance_ref;
   method_read_assembly_sw_connector;
   method_read_delegation_sw_connector;
   method_read_pass_through_sw_connector;
   method_read_composition_sw_component_type;
   method_read_swc_implementation;
   method_read_p_mode_group_in_atomic_swc_instance_ref;
   method_read_p_operation_in_atomic_swc_instance_ref;
   method_read_p_trigger_in_atomic_swc_instance_ref;
   method_read_r_mode_in_atomic_swc_instance_ref;
   method_read_r_mode_group_in_atomic_swc_instance_ref;
   method_read_r_operation_in_atomic_swc_instance_ref;
   method_read_r_variable_in_atomic_swc_instance_ref;
   method_read_r_trigger_in_atomic_swc_instance_ref;
   method_read_variable_in_impl_data_instance_ref;
   method_read_variable_in_atomic_swc_type_instance_ref;
   method_read_variable_access;
   method_read_autosar_variable_ref;
   method_read_executable_entity_activation_reason;
   method_read_exclusive_area_ref_conditional;
   method_read_runnable_entity_argument;
   method_read_async_server_call_point;
   method_read_sync_server_call_point;
   method_read_async_server_call_result_point;
   method_read_external_triggering_point_ident;
   method_read_external_triggering_point;
   method_read_internal_triggering_point;
   method_read_mode_access_point_ident;
   method_read_mode_access_point;
   method_read_mode_switch_point;
   method_read_parameter_in_atomic_swc_type_instance_ref;
   method_read_autosar_parameter_ref;
   method_read_parameter_access;
   method_read_wait_point;
   method_read_runnable_entity;
   method_read_async_server_call_returns_event;
   method_read_background_event;
   method_read_data_receive_error_event;
   method_read_data_received_event;
   method_read_data_send_completed_event;
   method_read_data_write_completed_event;
   method_read_external_trigger_occured_event;
   method_read_init_event;
   method_read_internal_trigger_occured_event;
   method_read_mode_switched_ack_event;
   method_read_operation_invoked_event;
   method_read_swc_mode_manager_error_event;
   method_read_swc_mode_switch_event;
   method_read_timing_event;
   method_read_transformer_hard_error_event;
   method_read_port_defined_argument_value;
   method_read_communication_buffer_locking;
   method_read_port_api_option;
   method_read_exclusive_area;
   method_read_swc_internal_behavior;
   method_read_value_specification_element].
(** What a method does about warnings when it is called for an element with the given name and children, apart from what the methods it calls do:
    _report_unprocessed_elements, reader.py:398-404, if it is called at all.  Simplification: a method that raises has not come to this call;
    the lines of this model are those of a method that returns. *)
Definition visits_of (m : method) (v : N) (tag : string) (kids : list located) : list visit := if m_reports m then [Through kids (m_steps m v tag)] else [].
