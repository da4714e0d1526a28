{
 "claims": [
  {
   "property": "C01",
   "status": "proved",
   "theorems": [
    "C01_made_package_is_found",
    "C01_many_packages_are_found",
    "C01_make_succeeds_unless_blocked"
   ],
   "note": "All reachable package trees and all strings; exact success condition for well-formed paths."
  },
  {
   "property": "C02",
   "status": "proved",
   "theorems": [
    "C02_make_twice_is_make_once",
    "C02_make_keeps_lookups"
   ],
   "note": "Idempotence, and lookup preservation whatever the outcome of the call."
  },
  {
   "property": "C03",
   "status": "proved",
   "theorems": [
    "C03_sibling_names_unique"
   ],
   "note": "Invariant over all histories, failing calls included."
  },
  {
   "property": "C04",
   "status": "proved",
   "theorems": [
    "C04_reference_leads_back",
    "C04_port_reference_leads_back",
    "C04_members_of_other_elements_refuted",
    "C04_duplicate_port_refuted"
   ],
   "note": "Elements and packages at any depth, ports of components with distinct port names; refuted for members of classes without find and for duplicate port names. Names are not reassigned after construction in the model."
  },
  {
   "property": "C05",
   "status": "proved",
   "theorems": [
    "C05_references_identify"
   ],
   "note": "Follows from C04."
  },
  {
   "property": "C06",
   "status": "proved",
   "theorems": [
    "C06_rejected_calls_change_nothing",
    "C06_malformed_path_refuted"
   ],
   "note": "Whole-state equality; refuted outside the stated domain (path with an empty component)."
  },
  {
   "property": "C07",
   "status": "proved",
   "theorems": [
    "C07_detached_iff_no_reference",
    "C07_reference_ends_iff_parents_end",
    "C07_parent_cycle_reachable"
   ],
   "note": "Plus exact termination condition; a parent cycle is reachable."
  },
  {
   "property": "C08",
   "status": "proved",
   "theorems": [
    "C08_returned_name_is_unused",
    "C08_only_exact_match_is_renamed"
   ],
   "note": "ASCII names; base name literal in the pattern (no metacharacters)."
  },
  {
   "property": "C09",
   "status": "partial",
   "theorems": [
    "C09_addition_keeps_names_distinct_iff",
    "C09_repeated_additions_distinct_partial",
    "C09_refuted",
    "C09_mixed_bases_refuted"
   ],
   "note": "Exact condition proved; refuted for lists holding both base and base_0."
  },
  {
   "property": "C10",
   "status": "proved",
   "theorems": [
    "C10_creation_order",
    "C10_tree_exists_iff"
   ],
   "note": "Every type value; tree exists exactly without pointer types."
  },
  {
   "property": "C11",
   "status": "partial",
   "theorems": [
    "C11_emission_order",
    "C11_sources_are_the_requests",
    "C11_declared_before_use",
    "C11_generation_succeeds",
    "C11_requested_type_is_emitted_partial",
    "C11_requested_type_missing_refuted",
    "C11_failed_request_breaks_generator_refuted",
    "C11_reference_emitter_ignored_refuted"
   ],
   "note": "Once, dependency-first and exact coverage relative to the source types, for every model requests can build; 'misses nothing requested' is refuted for base types created earlier as parts, and the emitter of reference types is ignored."
  },
  {
   "property": "C12",
   "status": "proved",
   "theorems": [
    "C12_registered_types_are_kept",
    "C12_call_keeps_registered_types",
    "C12_second_call_returns_same",
    "C12_parts_are_registered",
    "C12_acyclic_terminates",
    "C12_recursive_types_never_created"
   ],
   "note": "All request histories over all libraries (cyclic ones too: never created)."
  },
  {
   "property": "C13",
   "status": "proved",
   "theorems": [
    "C13_role_reference",
    "C13_follow_is_a_function",
    "C13_plain_relative_path",
    "C13_rooted_path",
    "C13_errors",
    "C13_other_namespaces_unchanged",
    "C13_relative_base_refuted"
   ],
   "note": "All namespaces, bases and relative paths. The relative-base case (base joined twice) is false of the code and shown by a witness."
  },
  {
   "property": "C14",
   "status": "proved",
   "theorems": [
    "C14_applied_element_is_found_and_kept",
    "C14_dependencies_exist_before_create",
    "C14_created_at_most_once",
    "C14_only_needed_elements_are_created",
    "C14_not_appended_refuted"
   ],
   "note": "All template trees and all workspace states; element constructors are quantified over with a stated contract. Templates with append_to_package false are refuted by a witness."
  },
  {
   "property": "C15",
   "status": "partial",
   "theorems": [
    "C15_integers",
    "C15_floats",
    "C15_large_floats_refuted",
    "C15_integers_as_floats",
    "C15_booleans",
    "C15_boolean_texts"
   ],
   "note": "All ints, all Python floats below 1e28, infinities, NaN, booleans. From 1e28 on writing raises decimal.InvalidOperation (proved for every such float)."
  },
  {
   "property": "C16",
   "status": "partial",
   "theorems": [
    "C16_prefixed_literals",
    "C16_decimal_literals",
    "C16_format_round_trip",
    "C16_decimal_round_trip",
    "C16_negative_refuted",
    "C16_scientific_partial",
    "C16_scientific_refuted",
    "C16_positive"
   ],
   "note": "All literals in bases 2, 8, 10, 16 with signs. Written negative hex/binary values cannot be read (proved for all), decimal/scientific formats are not recovered, and scientific loses digits beyond seven."
  },
  {
   "property": "C17",
   "status": "proved",
   "theorems": [
    "C17_interval",
    "C17_nan_refuted",
    "C17_missing_limit_refuted"
   ],
   "note": "All ints, finite and infinite floats. NaN is accepted by every interval and a missing limit raises TypeError (both proved)."
  },
  {
   "property": "C18",
   "status": "proved",
   "theorems": [
    "C18_texts",
    "C18_limits",
    "C18_tuples",
    "C18_rational"
   ],
   "note": "All item lists; all finite factors and offsets (exact rational arithmetic)."
  },
  {
   "property": "C19",
   "status": "proved",
   "theorems": [
    "C19_builds",
    "C19_mirrors",
    "C19_accepts",
    "C19_injective",
    "C19_with_check",
    "C19_round_trip"
   ],
   "note": "All Python data, nested to any depth; exact set of accepted data; round trip through text for data of writable texts and numbers (a bool is accepted but written as True)."
  },
  {
   "property": "C20",
   "status": "proved",
   "theorems": [
    "C20_every_member_has_text",
    "C20_member_survives",
    "C20_texts_differ",
    "C20_accepted_texts",
    "C20_axis_category_texts",
    "C20_unknown_text",
    "C20_version_gate",
    "C20_array_policy_versions",
    "C20_members_differ",
    "C20_without_tables"
   ],
   "note": "All Enum classes of the module, all texts, all versions. CalibrationAxisCategory accepts a second spelling; the seven classes without tables fail in both directions. Different members have different values (C20_members_differ)."
  },
  {
   "property": "C21",
   "status": "proved",
   "theorems": [
    "C21_construct",
    "C21_construct_without_dest",
    "C21_single_or_multiple",
    "C21_assign_string",
    "C21_assign_reference",
    "C21_always_valid",
    "C21_round_trip",
    "C21_classes_without_reader"
   ],
   "note": "All 47 reference classes; dest=None on a class with several destinations raises TypeError instead of the intended ValueError."
  },
  {
   "property": "C22",
   "status": "proved",
   "theorems": [
    "C22_layout",
    "C22_document_layout",
    "C22_parse_back",
    "C22_document_parse_back",
    "C22_text_determines_tree"
   ],
   "note": "Every tree; parser is modelled (elements, attributes, character data, predefined entities; no comments, processing instructions, CDATA or numeric references)."
  },
  {
   "property": "C23",
   "status": "partial",
   "theorems": [
    "C23_text_exact_partial",
    "C23_attribute_exact_partial",
    "C23_markup_injected",
    "C23_refuted"
   ],
   "note": "False: nothing is escaped. Proved: exactly which texts and attribute values survive, and that markup in texts is read back as elements."
  },
  {
   "property": "C24",
   "status": "proved",
   "theorems": [
    "C24_document_round_trip",
    "C24_same_shape",
    "C24_exact_round_trip",
    "C24_string_round_trip",
    "C24_same_document"
   ],
   "note": "Every document over all 21 element kinds of packages, every schema version, every reader state and mode, down to the characters of the file. C24_same_document states what is kept by relations that do not mention the model (SElem, SKept); the norm_ functions state exactly what changes (numbers, unit names, attributes never read back)."
  },
  {
   "property": "C25",
   "status": "proved",
   "theorems": [
    "C25_value_specification",
    "C25_hexadecimal_refuted"
   ],
   "note": "All nestings; same tree and numbers as an independent relation. Hexadecimal and binary numbers refuted by a witness."
  },
  {
   "property": "C26",
   "status": "proved",
   "theorems": [
    "C26_implementation_data_type",
    "C26_application_primitive_data_type",
    "C26_application_array_data_type",
    "C26_application_record_data_type",
    "C26_data_type_mapping_set",
    "C26_annotations_refuted",
    "C26_application_primitive_data_type_same",
    "C26_application_array_data_type_same",
    "C26_application_record_data_type_same"
   ],
   "note": "Independent relations (SElem, SKept) for all data types, and the exact reload. Loss of annotations after the first is proved for every list."
  },
  {
   "property": "C27",
   "status": "proved",
   "theorems": [
    "C27_compu_method",
    "C27_data_constraint"
   ],
   "note": "Independent relations; numbers compared by value."
  },
  {
   "property": "C28",
   "status": "proved",
   "theorems": [
    "C28_base_type",
    "C28_unit",
    "C28_mode_declaration_group",
    "C28_mode_switch_interface",
    "C28_nv_data_interface",
    "C28_parameter_interface",
    "C28_sender_receiver_interface",
    "C28_client_server_interface",
    "C28_nv_data_interface_same",
    "C28_parameter_interface_same",
    "C28_sender_receiver_interface_same",
    "C28_client_server_interface_same"
   ],
   "note": "Exact equality where possible; interfaces by independent relations (SKept), up to the changes of C25 and C26."
  },
  {
   "property": "C29",
   "status": "partial",
   "theorems": [
    "C29_text_determines_document_partial",
    "C29_uuid_refuted",
    "C29_uuid_kept",
    "C29_admin_data_refuted",
    "C29_validity_refuted",
    "C29_service_kind_refuted"
   ],
   "note": "False as stated: UUID, admin data, scale validity and service kind are lost or unwritable (refuted for all values). What is kept is stated by injectivity of saving up to norm_document."
  },
  {
   "property": "C30",
   "status": "partial",
   "theorems": [
    "C30_bad_element_as_if_absent_partial",
    "C30_tolerant_reading",
    "C30_strict_reading",
    "C30_other_failures_refuted",
    "C30_no_package_element_refuted"
   ],
   "note": "ParseError and DuplicateElement: every document, any depth, exact in both modes. Elements whose reading raises anything else (ValueError, TypeError, KeyError, AssertionError) abort tolerant reading too: the claim is refuted for them."
  },
  {
   "property": "C31",
   "status": "partial",
   "theorems": [
    "C31_version_round_trip",
    "C31_isolation_partial",
    "C31_isolation_refuted"
   ],
   "note": "Round trip for every version and reader history; isolation proved for documents that name a version and refuted for those that do not (write_str leaves it out by default): the version of the previous document stays."
  },
  {
   "property": "C32",
   "status": "partial",
   "theorems": [
    "C32_provide_port",
    "C32_require_port",
    "C32_provide_require_port",
    "C32_provide_port_accepted",
    "C32_require_port_accepted",
    "C32_provide_require_port_accepted_partial",
    "C32_provided_references",
    "C32_required_references",
    "C32_unknown_name",
    "C32_failure_changes_nothing",
    "C32_single_object_refuted",
    "C32_pairs_refuted",
    "C32_provided_side_refuted",
    "C32_reserved_names_refuted"
   ],
   "note": "P- and R-ports: the com-specs are exactly those asked for (soundness and completeness), references in interface order, unknown names rejected, failure changes nothing. PR-ports: soundness, completeness except the refused case. Refuted: a lone com-spec object is dropped, pairs are rejected for one-part interfaces, provided side of a PR-port rejected without required side, parts named cls/port_interface."
  },
  {
   "property": "C33",
   "status": "partial",
   "theorems": [
    "C33_one_connector",
    "C33_normalized",
    "C33_rejects",
    "C33_only_joins_partial",
    "C33_references",
    "C33_names_stay_unique",
    "C33_pass_through_refuted",
    "C33_delegation_refuted"
   ],
   "note": "Exactly one connector, unchanged composition on failure, normalized sides for assembly and delegation in both argument orders, rejected directions for assembly, references resolve, names stay unique: for every workspace and composition. Refuted: pass-through connectors take the sides from the argument order, delegation connectors do not check directions."
  },
  {
   "property": "C34",
   "status": "partial",
   "theorems": [
    "C34_one_text",
    "C34_created",
    "C34_accepted",
    "C34_failure",
    "C34_needs_surroundings",
    "C34_history",
    "C34_dicts_kept",
    "C34_rename",
    "C34_silent_refuted",
    "C34_only_parameter_refuted",
    "C34_shared_dict_refuted",
    "C34_direction_refuted"
   ],
   "note": "Each text that is accepted adds exactly the access point of the kind given by word, port direction and interface kind, with references to that port and element, and changes no other list; every such text is accepted; failures keep what came before; all histories. Refuted parts: texts accepted that add nothing, single parameter without name, dicts shared between texts, words do not select the direction."
  },
  {
   "property": "C35",
   "status": "partial",
   "theorems": [
    "C35_append_keeps_names_distinct_iff_partial",
    "C35_distinct_names_kept_partial",
    "C35_refuted"
   ],
   "note": "Exact condition per append proved; refuted for three equal names."
  },
  {
   "property": "C36",
   "status": "partial",
   "theorems": [
    "C36_created",
    "C36_accepted",
    "C36_one_event",
    "C36_failure_changes_nothing_partial",
    "C36_history",
    "C36_names_stay_distinct",
    "C36_failing_calls_refuted",
    "C36_detached_refuted",
    "C36_mode_group_refuted",
    "C36_names_refuted"
   ],
   "note": "Every create_*_event method, every history: one event, exact content, fresh name, start reference of the named runnable, valid requests accepted. Refuted: a failing mode-switch call or rejected keywords rename an existing event; behaviors outside a package get no start reference; a mode group given to the interface constructor gives no group reference."
  },
  {
   "property": "C37",
   "status": "partial",
   "theorems": [
    "C37_selected_ports",
    "C37_at_most_once",
    "C37_no_component",
    "C37_unknown_names_refuted"
   ],
   "note": "Exactly the selected ports, case-insensitive order of the new ones, each at most once over any history, success iff all names are known. Refuted: unknown names raise after the known ones were stored."
  },
  {
   "property": "C38",
   "status": "proved",
   "theorems": [
    "C38_update",
    "C38_history",
    "C38_unknown_name",
    "C38_failed_update_changes_settings_refuted",
    "C38_method_name_breaks_updates_refuted"
   ],
   "note": "All settings states and update histories; two refuted clauses state the actual behaviour."
  },
  {
   "property": "C39",
   "status": "proved",
   "theorems": [
    "C39_document_contents",
    "C39_document_written_iff",
    "C39_second_save_refuted",
    "C39_saving_moves_packages_refuted",
    "C39_saving_changes_references_refuted",
    "C39_generated_documents",
    "C39_repeated_suffix_refuted"
   ],
   "note": "All workspaces, document configurations and mappings. Repeatability and no-side-effect are false of configured documents and proved false; mapped documents are repeatable."
  },
  {
   "property": "C40",
   "status": "proved",
   "theorems": [
    "C40_split_of_join",
    "C40_strict_rejects",
    "C40_join_of_split"
   ],
   "note": "Both directions (split of join, join of split)."
  },
  {
   "property": "C41",
   "status": "proved",
   "theorems": [
    "C41_provide_port_prototype",
    "C41_require_port_prototype",
    "C41_pr_port_prototype",
    "C41_composition_sw_component_type",
    "C41_application_software_component_type",
    "C41_swc_internal_behavior",
    "C41_runnable_entity",
    "C41_access_names_refuted",
    "C41_assembly_sw_connector",
    "C41_delegation_sw_connector",
    "C41_swc_implementation",
    "C41_event",
    "C41_provided_com_spec",
    "C41_required_com_spec",
    "C41_provide_port_prototype_same",
    "C41_require_port_prototype_same",
    "C41_pr_port_prototype_same",
    "C41_composition_sw_component_type_same",
    "C41_swc_internal_behavior_same",
    "C41_runnable_entity_same",
    "C41_application_software_component_type_same",
    "C41_provided_com_spec_same",
    "C41_required_com_spec_same"
   ],
   "note": "By independent relations (SKept) and exactly: all com-specs, ports, connectors, events, runnables, behaviors and components, with the schema version dependent writing of exclusive areas. Access points of one list of a runnable that share a name come back renamed (C41_access_names_refuted): the round trip is proved for distinct names, as the creation methods make them."
  },
  {
   "property": "C42",
   "status": "proved",
   "theorems": [
    "C42_second_reload_exact",
    "C42_any_number_of_reloads",
    "C42_text_is_stable"
   ],
   "note": "Follows from idempotence of the representation changes, proved class by class."
  },
  {
   "property": "C43",
   "status": "proved",
   "theorems": [
    "C43_finds",
    "C43_found_stands",
    "C43_unambiguous",
    "C43_nothing_else",
    "C43_trailing_names_refuted"
   ],
   "note": "All trees of packages with the typed elements of the model; names after a port, component prototype or connector are ignored (refuted part stated)."
  },
  {
   "property": "C44",
   "status": "partial",
   "theorems": [
    "C44_types_mirror_elements",
    "C44_types_as_described",
    "C44_described_unique",
    "C44_declared_once",
    "C44_header_exists_iff",
    "C44_same_name_refuted",
    "C44_symbol_ignored_refuted",
    "C44_array_kinds_refuted"
   ],
   "note": "Mirroring for all workspaces and histories; meaning of the declarations for all models whose names do not collide in C, exact condition for generation. Refuted: equal short-names in two packages; the symbol of an element is not used; arrays of arrays and arrays with size policy, handling or semantics can never be requested."
  },
  {
   "property": "C45",
   "status": "partial",
   "theorems": [
    "C45_header_inclusion",
    "C45_linkage_refuted"
   ],
   "note": "Guard, order, braces, conditions for every model and macro set. Refuted for every header: the linkage specification is under #ifndef __cplusplus, so C gets it and C++ does not."
  },
  {
   "property": "C46",
   "status": "partial",
   "theorems": [
    "C46_runnable",
    "C46_failure",
    "C46_unknown_area",
    "C46_named_areas",
    "C46_needs_package",
    "C46_distinct_points",
    "C46_history",
    "C46_references_exist",
    "C46_order_refuted",
    "C46_mixed_refuted",
    "C46_inside_refuted",
    "C46_nesting_refuted",
    "C46_same_name_refuted"
   ],
   "note": "Exact characterization of success. The stronger reading fails: names of areas are put in the order of the behavior, references given together with names are dropped, names in runs_insides are not resolved, nesting orders that are no list are ignored, equal names of runnables are accepted (_refuted)."
  },
  {
   "property": "C47",
   "status": "partial",
   "theorems": [
    "C47_behavior",
    "C47_failure",
    "C47_exclusive_area",
    "C47_exclusive_area_failure",
    "C47_one_option_per_port",
    "C47_replaced_refuted"
   ],
   "note": "Exact characterization of success. An existing behavior is replaced without notice (_refuted)."
  },
  {
   "property": "C48",
   "status": "partial",
   "theorems": [
    "C48_alignment",
    "C48_display_format",
    "C48_rejected",
    "C48_int",
    "C48_trailing_refuted"
   ],
   "note": "Exact acceptance against the regular expressions, given a semantics of their own. Text after the format is ignored, so texts that are no format as a whole are accepted (_refuted)."
  },
  {
   "property": "C49",
   "status": "partial",
   "theorems": [
    "C49_accepted_iff",
    "C49_role_reference",
    "C49_other_roles",
    "C49_documents",
    "C49_mappings",
    "C49_settings",
    "C49_failed_load_changes_workspace_refuted",
    "C49_document_without_packages_refuted",
    "C49_document_as_list_refuted",
    "C49_single_suffix_refuted",
    "C49_mapping_like_api",
    "C49_element_types_refuted",
    "C49_setting_named_update_refuted"
   ],
   "note": "Exact acceptance and the whole effect of a successful load are proved for all files and states. A failed load is not without effect, documents without packages and single suffixes given by call raise although declared, any name of the module is accepted as element type, and a setting called update disables later files (_refuted). The TOML parser is not modelled."
  },
  {
   "property": "C50",
   "status": "partial",
   "theorems": [
    "C50_sender_receiver_interface",
    "C50_nv_data_interface",
    "C50_parameter_interface",
    "C50_mode_switch_interface",
    "C50_client_server_interface",
    "C50_policy",
    "C50_data_element",
    "C50_invalidation_policy",
    "C50_nv_data",
    "C50_parameter",
    "C50_operation",
    "C50_possible_error",
    "C50_mode_group",
    "C50_argument",
    "C50_in_argument",
    "C50_inout_argument",
    "C50_out_argument",
    "C50_error_ref",
    "C50_on_operation",
    "C50_failure",
    "C50_history",
    "C50_operation_names",
    "C50_single_error_refuted",
    "C50_error_texts_refuted",
    "C50_wrong_elements_refuted",
    "C50_argument_reference_refuted",
    "C50_same_name_refuted"
   ],
   "note": "Exact characterization of every constructor and create method, and an invariant for all call sequences on client-server interfaces. The stronger reading fails: one possible error, and texts in a list of error references, are declared but always rejected; wrong data elements raise UnboundLocalError; arguments of operations can never be referred to; equal names are accepted (_refuted)."
  },
  {
   "property": "C51",
   "status": "proved",
   "theorems": [
    "C51_group",
    "C51_mode",
    "C51_transition",
    "C51_error_behavior",
    "C51_create_mode",
    "C51_append_transition",
    "C51_failure",
    "C51_find",
    "C51_survives"
   ],
   "note": "Exact characterization of the constructors and create methods, search, and the round trip of groups made of clean names and numbers (more generally by C28)."
  },
  {
   "property": "C52",
   "status": "partial",
   "theorems": [
    "C52_line_created_iff",
    "C52_line_refused",
    "C52_superscript_refuted",
    "C52_unit_names_created_iff",
    "C52_line_text",
    "C52_unit_names_text",
    "C52_markup_unique",
    "C52_markup_exists",
    "C52_line_read_back_iff_partial",
    "C52_unit_names_read_back_iff_partial",
    "C52_formatting_refuted",
    "C52_text_after_term_refuted",
    "C52_text_after_first_term_refuted",
    "C52_text_after_script_refuted",
    "C52_unit_names_of_str",
    "C52_unit_names_str_iff"
   ],
   "note": "Creation and the text written are characterized exactly. Reading back is false for everything but technical terms in text lines and scripts in unit names, and for text after an inline element; the exact set of lines and names read back is proved."
  },
  {
   "property": "C53",
   "status": "partial",
   "theorems": [
    "C53_bits_iff",
    "C53_text_props_iff",
    "C53_pointer_iff",
    "C53_conditional_iff",
    "C53_props_iff",
    "C53_append_variant_iff",
    "C53_variant_at",
    "C53_variant_missing",
    "C53_symbol_iff",
    "C53_type_element_iff",
    "C53_implementation_type_iff",
    "C53_primitive_iff",
    "C53_array_element_iff",
    "C53_array_iff",
    "C53_record_element_iff",
    "C53_record_iff",
    "C53_mapping_set_iff",
    "C53_append_to_type_iff",
    "C53_append_to_element_iff",
    "C53_append_to_record_iff",
    "C53_extend_iff",
    "C53_append_map_iff",
    "C53_element_reference_refuted",
    "C53_record_tuple_refuted",
    "C53_unit_iff_partial",
    "C53_unit_dimension_text",
    "C53_unit_dimension_refuted",
    "C53_unit_dimension_lost"
   ],
   "note": "Exact characterization of every constructor, of append and of extend, of indexing, and of the decimal texts taken as ints. The stronger reading fails: a physical dimension given as a text is replaced by the display name of the unit, record elements in a tuple are ignored, extend adds the elements before a wrong one, and elements added to a type never have a reference (_refuted). CompuMethod, CompuScale, SwBaseType and DataTypeMap, whose constructors check nothing or little, are modelled as values only."
  },
  {
   "property": "C54",
   "status": "proved",
   "theorems": [
    "C54_read_integer",
    "C54_read_integer_error",
    "C54_read_number",
    "C54_read_number_error",
    "C54_numerical_value",
    "C54_numerical_value_error",
    "C54_positive_value",
    "C54_positive_value_error",
    "C54_one_value",
    "C54_number_element",
    "C54_integer_element",
    "C54_int_element",
    "C54_float_element",
    "C54_positive_element",
    "C54_value_element",
    "C54_index_element",
    "C54_alignment_element"
   ],
   "note": "Exact grammar (SLiteral.v) of the texts accepted by every reader of numbers and by the value constructors, with value, error kind and remembered format; each text has at most one value. ASCII texts; the limit of 4300 digits in int() and the rounding of float texts to doubles are not modelled (a float text denotes its exact decimal value). Texts in other readings (com-spec timeouts, units, access points) use the same grammar."
  },
  {
   "property": "C55",
   "status": "proved",
   "theorems": [
    "C55_document",
    "C55_rearranged_document",
    "C55_text",
    "C55_element",
    "C55_package",
    "C55_any_order",
    "C55_equivalence",
    "C55_root_attributes_refuted",
    "C55_sequence_refuted",
    "C55_unknown_in_sequence_refuted"
   ],
   "note": "Every modelled reader is shown to give equal results on corresponding elements (SOrder.alike), an equivalence that contains all rearrangements (SOrder.rearranged). The root attributes must be the same: of two schema locations the last counts (refuted otherwise). Theorems ending in _refuted show that the exceptions for sequences are needed. The vocabulary tables in SOrder.v are the names the modelled readers use."
  },
  {
   "property": "C56",
   "status": "partial",
   "theorems": [
    "C56_value_list",
    "C56_value_list_append",
    "C56_values",
    "C56_values_append",
    "C56_value_group",
    "C56_text_label_refuted",
    "C56_tuple_ignored",
    "C56_axis",
    "C56_value_container",
    "C56_text_value",
    "C56_array",
    "C56_record",
    "C56_append",
    "C56_application",
    "C56_constant_reference",
    "C56_constant",
    "C56_make_constant",
    "C56_make_constant_accepts",
    "C56_make_constant_reloads"
   ],
   "note": "Exact characterization of every constructor and of append; acceptance of make_constant reduced to C19 and its reload to C25. The stronger reading fails: the documented text label of a ValueGroup is refused (_refuted), and values given in a tuple are ignored without an error (C56_tuple_ignored). Labels of value specifications and the value of NumericalValueSpecification are not checked by the code and are modelled as texts and numbers."
  },
  {
   "property": "C57",
   "status": "proved",
   "theorems": [
    "C57_DataFilter",
    "C57_AutosarEngineeringObject",
    "C57_Code",
    "C57_SwcImplementation",
    "C57_ModeRequestTypeMap",
    "C57_E2EProfileCompatibilityProps",
    "C57_EndToEndTransformationComSpecProps",
    "C57_ModeSwitchedAckRequest",
    "C57_TransmissionAcknowledgementRequest",
    "C57_TransmissionComSpecProps",
    "C57_ReceptionComSpecProps",
    "C57_QueuedSenderComSpec",
    "C57_NonqueuedSenderComSpec",
    "C57_ModeSwitchSenderComSpec",
    "C57_NvProvideComSpec",
    "C57_ParameterProvideComSpec",
    "C57_ServerComSpec",
    "C57_QueuedReceiverComSpec",
    "C57_NonqueuedReceiverComSpec",
    "C57_NvRequireComSpec",
    "C57_ParameterRequireComSpec",
    "C57_ModeSwitchReceiverComSpec",
    "C57_ClientComSpec",
    "C57_Code_append_artifact_descriptors",
    "C57_SwcImplementation_append_code_descriptors",
    "C57_ServerComSpec_append_transformation_com_spec_props",
    "C57_QueuedReceiverComSpec_append_transformation_com_spec_props",
    "C57_NonqueuedReceiverComSpec_append_transformation_com_spec_props",
    "C57_ClientComSpec_append_transformation_com_spec_props"
   ],
   "note": "Exact characterization of success and of the object made, for every constructor and append."
  },
  {
   "property": "C58",
   "status": "partial",
   "theorems": [
    "C58_POperationInAtomicSwcInstanceRef",
    "C58_PModeGroupInAtomicSwcInstanceRef",
    "C58_PTriggerInAtomicSwcTypeInstanceRef",
    "C58_ROperationInAtomicSwcInstanceRef",
    "C58_RModeInAtomicSwcInstanceRef",
    "C58_RModeGroupInAtomicSwcInstanceRef",
    "C58_RVariableInAtomicSwcInstanceRef",
    "C58_RTriggerInAtomicSwcInstanceRef",
    "C58_ArVariableInImplementationDataInstanceRef",
    "C58_VariableInAtomicSWCTypeInstanceRef",
    "C58_AutosarVariableRef",
    "C58_ParameterInAtomicSwcTypeInstanceRef",
    "C58_AutosarParameterRef",
    "C58_VariableAccess",
    "C58_ExecutableEntityActivationReason",
    "C58_ExclusiveAreaRefConditional",
    "C58_RunnableEntityArgument",
    "C58_AsynchronousServerCallPoint",
    "C58_AsynchronousServerCallResultPoint",
    "C58_SynchronousServerCallPoint",
    "C58_ExternalTriggeringPointIdent",
    "C58_ExternalTriggeringPoint",
    "C58_InternalTriggeringPoint",
    "C58_ModeAccessPointIdent",
    "C58_ModeAccessPoint",
    "C58_ModeSwitchPoint",
    "C58_ParameterAccess",
    "C58_WaitPoint",
    "C58_ArVariableInImplementationDataInstanceRef_append_context_data_prototype_refs",
    "C58_VariableInAtomicSWCTypeInstanceRef_append_context_data_prototype_refs",
    "C58_tuple_refuted"
   ],
   "note": "Exact characterization of success and of the object made, for every constructor and append. The stronger reading fails: context references given in a tuple, or as anything else but a reference or a list, are ignored without an error (C58_tuple_refuted)."
  },
  {
   "property": "C59",
   "status": "partial",
   "theorems": [
    "C59_AsynchronousServerCallReturnsEvent",
    "C59_BackgroundEvent",
    "C59_DataReceiveErrorEvent",
    "C59_DataReceiveErrorEvent_make",
    "C59_DataReceivedEvent",
    "C59_DataReceivedEvent_make",
    "C59_DataSendCompletedEvent",
    "C59_DataWriteCompletedEvent",
    "C59_ExternalTriggerOccurredEvent",
    "C59_ExternalTriggerOccurredEvent_make",
    "C59_InitEvent",
    "C59_InternalTriggerOccurredEvent",
    "C59_ModeSwitchedAckEvent",
    "C59_OperationInvokedEvent",
    "C59_OperationInvokedEvent_make",
    "C59_SwcModeManagerErrorEvent",
    "C59_SwcModeManagerErrorEvent_make",
    "C59_SwcModeSwitchEvent",
    "C59_SwcModeSwitchEvent_make",
    "C59_TimingEvent",
    "C59_TransformerHardErrorEvent",
    "C59_PortDefinedArgumentValue",
    "C59_CommunicationBufferLocking",
    "C59_PortApiOption",
    "C59_AsynchronousServerCallReturnsEvent_append_disabled_modes",
    "C59_BackgroundEvent_append_disabled_modes",
    "C59_DataReceiveErrorEvent_append_disabled_modes",
    "C59_DataReceivedEvent_append_disabled_modes",
    "C59_DataSendCompletedEvent_append_disabled_modes",
    "C59_DataWriteCompletedEvent_append_disabled_modes",
    "C59_ExternalTriggerOccurredEvent_append_disabled_modes",
    "C59_InitEvent_append_disabled_modes",
    "C59_InternalTriggerOccurredEvent_append_disabled_modes",
    "C59_ModeSwitchedAckEvent_append_disabled_modes",
    "C59_OperationInvokedEvent_append_disabled_modes",
    "C59_SwcModeManagerErrorEvent_append_disabled_modes",
    "C59_SwcModeSwitchEvent_append_disabled_modes",
    "C59_TimingEvent_append_disabled_modes",
    "C59_TransformerHardErrorEvent_append_disabled_modes",
    "C59_PortApiOption_append_port_arg_values",
    "C59_PortApiOption_append_supported_features",
    "C59_tuple_refuted",
    "C59_mode_count_refuted"
   ],
   "note": "Exact characterization of success and of the object made, for every constructor, make and append. The stronger reading fails: disabled modes given in a tuple are ignored without an error (C59_tuple_refuted), a tuple of one mode raises IndexError and one of more than two is accepted though only two are ever written (C59_mode_count_refuted)."
  },
  {
   "property": "C60",
   "status": "partial",
   "theorems": [
    "C60_ProvidePortPrototype",
    "C60_RequirePortPrototype",
    "C60_PortInCompositionTypeInstanceRef",
    "C60_SwComponentPrototype",
    "C60_AssemblySwConnector",
    "C60_DelegationSwConnector",
    "C60_PassThroughSwConnector",
    "C60_ApplicationSoftwareComponentType",
    "C60_CompositionSwComponentType",
    "C60_ProvidePortPrototype_append_com_spec",
    "C60_RequirePortPrototype_append_com_spec",
    "C60_ApplicationSoftwareComponentType_append_ports",
    "C60_CompositionSwComponentType_append_ports",
    "C60_CompositionSwComponentType_append_components",
    "C60_CompositionSwComponentType_append_connectors",
    "C60_PRPortPrototype",
    "C60_PRPortPrototype_append",
    "C60_provided_list_refuted",
    "C60_wrong_side_refuted",
    "C60_PRPortPrototype_holds"
   ],
   "note": "Exact characterization of success and of the object made, for every constructor and append. The stronger reading fails for PRPortPrototype: a list of provided com-specs is refused unless the required ones are a list or tuple too (C60_provided_list_refuted), and com-specs for one side are accepted in the argument for the other (C60_wrong_side_refuted); with at most one provided com-spec each side holds what is given for it (C60_PRPortPrototype_holds)."
  },
  {
   "property": "C61",
   "status": "proved",
   "theorems": [
    "C61_ref",
    "C61_detached",
    "C61_written",
    "C61_kind_identifies",
    "C61_tag",
    "C61_leads_back",
    "C61_attached"
   ],
   "note": "Agreement of kind and written tag (C61_tag) is for classes with a tag of their own: VariableDataPrototype, ParameterDataPrototype, ModeDeclarationGroupPrototype and VariableAccess are written under the tag of the place where they stand, ApplicationArrayElement as ELEMENT."
  },
  {
   "property": "C62",
   "status": "proved",
   "theorems": [
    "C62_map",
    "C62_no_map",
    "C62_add",
    "C62_added_is_found",
    "C62_kept",
    "C62_mapped_again",
    "C62_failed_map_refuted"
   ],
   "note": "A map that cannot be created completely has already replaced the old one (C62_failed_map_refuted); the statement makes no claim about a failing create_package_map."
  },
  {
   "property": "C63",
   "status": "proved",
   "theorems": [
    "C63_found_stays_found",
    "C63_paths_stay",
    "C63_names_stay",
    "C63_moved_refuted"
   ],
   "note": "The reference an element states for itself may change: appending it to a second package moves it (C63_moved_refuted); both paths find it."
  },
  {
   "property": "C64",
   "status": "partial",
   "theorems": [
    "C64_save_iff",
    "C64_save_file_iff",
    "C64_one_object_blocks",
    "C64_round_trip_savable",
    "C64_loaded_savable_refuted"
   ],
   "note": "The exact condition is proved in both directions (C64_save_iff). That loaded documents can be saved again is refuted: a factor of 1e30 is read and has no text (C64_loaded_savable_refuted); an empty VT is read as a missing constant; an interface with a service kind cannot be saved at all."
  },
  {
   "property": "C65",
   "status": "partial",
   "theorems": [
    "C65_torn_file_rejected",
    "C65_any_text",
    "C65_interrupted_saves",
    "C65_completed_saves",
    "C65_all_or_nothing_refuted",
    "C65_failing_save_refuted",
    "C65_failing_savings"
   ],
   "note": "Interruptions, rejection of torn files and rows of saves are proved for all documents that survive a round trip (C24). That the old file survives is false for every document: it is truncated before the first byte is written, also when the document then turns out not to be savable (C65_all_or_nothing_refuted, C65_failing_save_refuted)."
  },
  {
   "property": "C66",
   "status": "partial",
   "theorems": [
    "C66_found_after_reload",
    "C66_document_exists",
    "C66_oldest_first_acyclic",
    "C66_configured_document",
    "C66_workspace_paths",
    "C66_inside_itself_refuted"
   ],
   "note": "Proved for all histories whose document has a finite tree and whose contents survive a round trip (C24). A package appended to itself or to one of its descendants has none: C66_inside_itself_refuted. Elements inside components are covered by C43 and C41."
  },
  {
   "property": "C67",
   "status": "partial",
   "theorems": [
    "C67_run",
    "C67_first_failure",
    "C67_configured_reload",
    "C67_generated_reload",
    "C67_failing_mapping",
    "C67_files_before_failure",
    "C67_nested_package_refuted",
    "C67_same_file_refuted"
   ],
   "note": "Proved for documents configured with packages of the workspace itself. For nested packages the run succeeds but the generated documents have other paths (C67_nested_package_refuted); equal names in two mapped packages overwrite each other (C67_same_file_refuted)."
  },
  {
   "property": "C68",
   "status": "partial",
   "theorems": [
    "C68_exact",
    "C68_unambiguous",
    "C68_same_reading",
    "C68_rearranged",
    "C68_malformed",
    "C68_aside_before_tag",
    "C68_aside_around",
    "C68_comment_cuts_text",
    "C68_comment_refuted",
    "C68_utf8",
    "C68_utf8_shape",
    "C68_references_differ",
    "C68_characters",
    "C68_char_numbers",
    "C68_line_ends"
   ],
   "note": "Proved for XML 1.0 in UTF-8 without document type declarations. A comment inside a text cuts off the rest of the text (C68_comment_cuts_text for every element and text, C68_comment_refuted for a package name), because lxml ends .text there and the reader looks at .text only."
  },
  {
   "property": "C69",
   "status": "partial",
   "theorems": [
    "C69_exact",
    "C69_cleaned",
    "C69_rename",
    "C69_default_or_prefix",
    "C69_no_namespace",
    "C69_other_namespace_refuted",
    "C69_undeclared_prefix",
    "C69_written"
   ],
   "note": "Renaming, prefix instead of default, no namespace, undeclared prefixes and written documents are proved. That a document in another namespace is refused is false: C69_other_namespace_refuted proves that every such document is read as an empty document, in strict mode too."
  },
  {
   "property": "C70",
   "status": "proved",
   "theorems": [
    "C70_document",
    "C70_value_specification",
    "C70_event",
    "C70_provided_com_spec",
    "C70_required_com_spec",
    "C70_runnable",
    "C70_internal_behavior"
   ],
   "note": "built_document (SBuilt.v) says which documents are built by constructor calls; the constructors are those of C46, C50, C51, C53 and C56 to C60. Computation methods, data constraints, base types, numeric and not-available value specifications, annotations, formatted texts and data type maps enter by the condition on their parts, because their constructors store or convert single values only. Administrative data and the service kind of an interface are excluded because they are lost (C29)."
  },
  {
   "property": "C71",
   "status": "proved",
   "theorems": [
    "C71_package_iff",
    "C71_addr_method_iff",
    "C71_base_type_iff",
    "C71_method_iff",
    "C71_physical_iff",
    "C71_internal_iff",
    "C71_constraint_iff",
    "C71_scale_accepts",
    "C71_rule_parts",
    "C71_scale_parts",
    "C71_value_table",
    "C71_value_table_exists",
    "C71_table",
    "C71_table_exists",
    "C71_rational",
    "C71_rational_default",
    "C71_same_conversions",
    "C71_enumeration",
    "C71_linear",
    "C71_same_checks",
    "C71_limits"
   ],
   "note": "Arguments of computation methods, constraints and base types have the documented types: their constructors store other values unchecked. float(scaling_factor) is exact (up to 2^53 for ints). What a computation converts is said in SMeth.v."
  },
  {
   "property": "C72",
   "status": "proved",
   "theorems": [
    "C72_round_trip",
    "C72_class_kept",
    "C72_element",
    "C72_wrong_arguments",
    "C72_inline_any_tag",
    "C72_unknown_class",
    "C72_unknown_name",
    "C72_unknown_type",
    "C72_file",
    "C72_package_refuted",
    "C72_other_name_refuted"
   ],
   "note": "The reverse direction for packages and unlisted names is refuted (C72_package_refuted, C72_other_name_refuted): they are written but not readable. Objects are as in C25-C28 and C41 (texts that XML can carry)."
  },
  {
   "property": "C73",
   "status": "partial",
   "theorems": [
    "C73_get",
    "C73_file",
    "C73_string",
    "C73_element",
    "C73_determined",
    "C73_order",
    "C73_off",
    "C73_unparsed",
    "C73_independent",
    "C73_file_name_refuted",
    "C73_repeated_refuted"
   ],
   "note": "Proved except for two parts that are false of the code: C73_file_name_refuted (stale file name in read_str_elem) and C73_repeated_refuted (repeated children are dropped silently). Which names each reading method looks up is quantified over, not modelled here."
  },
  {
   "property": "C74",
   "status": "partial",
   "theorems": [
    "C74_only_asked",
    "C74_order",
    "C74_unasked",
    "C74_truthful",
    "C74_accounted",
    "C74_silent",
    "C74_exact",
    "C74_forgotten_refuted",
    "C74_lost_refuted"
   ],
   "note": "Proved except for one part that is false: C74_lost_refuted and C74_forgotten_refuted show children that are neither read nor reported; C74_silent lists the methods that never report. The sequences of get and skip are those of the code, extracted method by method; C74_exact ties them to the readers that the round-trip theorems are about."
  },
  {
   "property": "C75",
   "status": "partial",
   "theorems": [
    "C75_completed",
    "C75_interrupted",
    "C75_one_torn",
    "C75_saves",
    "C75_same_path_refuted",
    "C75_failing_document",
    "C75_failing_mapping"
   ],
   "note": "Proved for runs whose files have different paths (hypothesis NoDup); without it the claim is false (C75_same_path_refuted). As in C67, documents are configured with packages of the workspace itself. C75_saves shows that the hypothesis about saving can be met."
  },
  {
   "property": "C76",
   "status": "partial",
   "theorems": [
    "C76_documents",
    "C76_single_elements",
    "C76_methods",
    "C76_never",
    "C76_every_kind",
    "C76_tolerant",
    "C76_only_parse_errors_refuted"
   ],
   "note": "The characterization is proved in full; the desired restriction to ParseError and DuplicateElement is false (C76_only_parse_errors_refuted). ParseError stands for the library's ParseError and for the one of the XML parser. Exceptions of the host (memory, recursion limit of the interpreter, decoding of a file that is not text) are not modelled."
  },
  {
   "property": "C77",
   "status": "proved",
   "theorems": [
    "C77_documents",
    "C77_single_elements",
    "C77_element_files",
    "C77_never",
    "C77_every_kind"
   ],
   "note": "Attributes hold values of the types of the model: an attribute set to an object of a foreign class is not covered. Exceptions of the host (memory, disk, recursion limit of the interpreter) are not modelled."
  }
 ]
}