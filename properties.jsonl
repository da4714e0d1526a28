{"id": "C01", "title": "A made package can be found", "statement": "When make_packages(ref) succeeds on a workspace/document, find(ref) on the resulting object returns exactly the package that make_packages returned, and its path of short-names is the path spelled by ref.", "quantifier": "every package-tree state reachable by any sequence of create/append/make calls, every reference string", "why_tests_cant": "The tree shapes and reference strings are unbounded; a test fixes a few of each.", "anchors": ["src/autosar/xml/element.py: PackageCollection.make_packages, PackageCollection.find, Package.make_packages, Package.find"]}
{"id": "C02", "title": "make_packages is idempotent and only adds", "statement": "Calling make_packages(ref) a second time returns the same package and changes nothing; and a call to make_packages never changes what any reference that already resolved resolves to.", "quantifier": "every reachable package-tree state and every pair of reference strings", "why_tests_cant": "Needs all pairs (made ref, previously resolvable ref) over all trees.", "anchors": ["src/autosar/xml/element.py: PackageCollection.make_packages, Package.make_packages, Package.create_package"]}
{"id": "C03", "title": "Sibling short-names stay unique", "statement": "In every package and every document/workspace, no two direct children (elements and sub-packages taken together) ever have the same short-name, and the name lookup returns precisely the listed children.", "quantifier": "every finite history of object creation, append, create_package and make_packages calls, failing calls included", "why_tests_cant": "An invariant over unbounded histories, including failed calls in the middle.", "anchors": ["src/autosar/xml/element.py: Package.append, Package.create_package, PackageCollection.append, PackageCollection.create_package"]}
{"id": "C04", "title": "A reference leads back to its element", "statement": "For an element or package attached (transitively) to a document/workspace, looking up the string of its ref() in that document/workspace yields that same object.", "quantifier": "every reachable package tree built by appending each object once, short-names non-empty and without '/', elements at any depth", "why_tests_cant": "Depth and width of the tree are unbounded.", "anchors": ["src/autosar/xml/element.py: Identifiable._calc_ref_string, Identifiable.update_ref_parts, PackageCollection.find, Package.find, Package.ref"]}
{"id": "C05", "title": "References identify elements", "statement": "Two different objects attached to the same document/workspace have different reference strings.", "quantifier": "every pair of objects of every reachable package tree", "why_tests_cant": "All pairs over all trees.", "anchors": ["src/autosar/xml/element.py: Identifiable._calc_ref_string"]}
{"id": "C06", "title": "Rejected additions change nothing", "statement": "An append (or create) that raises because the name is taken leaves every lookup, every child list and every reference unchanged; make_packages that fails because a path component is an existing non-package element also changes nothing.", "quantifier": "every reachable state, every rejected call", "why_tests_cant": "The state is unbounded; tests check the exception, not the whole state afterwards.", "anchors": ["src/autosar/xml/element.py: Package.append, PackageCollection.append, Package.make_packages"]}
{"id": "C07", "title": "Detached objects have no reference", "statement": "ref() is None if and only if following parent links from the object does not end in a document/workspace.", "quantifier": "every reachable object graph without parent cycles", "why_tests_cant": "Unbounded parent chains.", "anchors": ["src/autosar/xml/element.py: Identifiable._calc_ref_string, Referrable.root_collection"]}
{"id": "C08", "title": "Generated unique names are unique", "statement": "make_unique_name_in_list(elements, base) returns a name which no element of the list has after the call; only an element named exactly base may be renamed (to base_0), all other names are untouched.", "quantifier": "every list of names, every base name free of regex metacharacters", "why_tests_cant": "Name lists of any length and suffix numbers of any size.", "anchors": ["src/autosar/xml/element.py: make_unique_name_in_list"]}
{"id": "C09", "title": "Repeated same-name additions stay distinct", "statement": "Adding n elements one after another through the unique-name helper (using the name it returns) to a list gives n pairwise different names.", "quantifier": "every n, every base name and every starting list of distinct names", "why_tests_cant": "Counter suffixes must be right for every n.", "anchors": ["src/autosar/xml/element.py: make_unique_name_in_list, SwcInternalBehavior._make_unique_event_name"]}
{"id": "C10", "title": "Type creation order is complete and dependency-first", "statement": "For any set of requested types the creation order lists every transitively required type, and each type occurs after (at least one occurrence of) every type it depends on - removing repeats by keeping first occurrences gives a valid C declaration order.", "quantifier": "every finite acyclic type dependency graph and every list of requested roots", "why_tests_cant": "All DAG shapes; shared sub-types at different depths are the classic failure.", "anchors": ["src/autosar/model/implementation.py: ImplementationModel.get_type_creation_order, gen_type_dependency_trees, _create_tree_node"]}
{"id": "C11", "title": "Generated header declares each type once, after its dependencies", "statement": "The list of type definitions a generator emits contains each data type at most once, every type after the types it refers to, skips types owned by another emitter and base types without native declaration, and misses nothing else.", "quantifier": "every finite acyclic type model and request list", "why_tests_cant": "All graph shapes and emitter assignments.", "anchors": ["src/autosar/generator/type_generator.py: TypeGenerator.gen_data_type_creation_order (and _gen_type_defs)"]}
{"id": "C12", "title": "Implementation model caching", "statement": "create_from_ref called twice for the same reference returns the same object, registers every type transitively referenced, and never replaces an already registered type.", "quantifier": "every sequence of create_from_ref/create_from_element calls over every acyclic type library", "why_tests_cant": "Histories over arbitrary libraries.", "anchors": ["src/autosar/model/implementation.py: ImplementationModel.create_from_ref, create_from_element"]}
{"id": "C13", "title": "Package reference of a role", "statement": "After create_namespace with a package map, get_package_ref_by_role(ns, role) is the normalized path of base_ref joined with the role's relative path, for every role in the map, and an error for other roles/namespaces.", "quantifier": "every namespace configuration and role", "why_tests_cant": "Paths are arbitrary strings; namespaces may be re-created.", "anchors": ["src/autosar/xml/workspace.py: Namespace, Workspace.create_namespace, Workspace.get_package_ref_by_role"]}
{"id": "C14", "title": "Template application", "statement": "apply(template) leaves the element reachable at template.ref(workspace); applying it (or any template depending on it) again creates nothing new; every dependency exists before the template's own create runs.", "quantifier": "every finite acyclic template dependency graph and every sequence of apply calls", "why_tests_cant": "All dependency graphs and call sequences.", "anchors": ["src/autosar/xml/workspace.py: Workspace.apply, _apply_element_template, _create_dependencies", "src/autosar/xml/template.py: ElementTemplate.ref"]}
{"id": "C15", "title": "Numeric text format round trip", "statement": "The text the writer produces for a number (int, float with a finite decimal value, inf, -inf) is read back by the reader as an equal number.", "quantifier": "every integer; every finite decimal of at most 28 significant integer digits; infinities", "why_tests_cant": "Infinitely many numbers; rounding and exponent forms fail only on rare ones.", "anchors": ["src/autosar/xml/writer.py: _XMLWriter._format_float, _format_number, _format_boolean", "src/autosar/xml/reader.py: _read_number, _read_integer, _read_boolean"]}
{"id": "C16", "title": "Integer literal formats", "statement": "NumericalValue/PositiveIntegerValue accept decimal, hex, octal and binary text with the right value and format, reject negative positive-integers, and the writer re-emits text that reads back to the same value and format.", "quantifier": "every integer and every literal format", "why_tests_cant": "Infinitely many literals.", "anchors": ["src/autosar/xml/element.py: NumericalValue, PositiveIntegerValue", "src/autosar/xml/writer.py: _format_numerical_value"]}
{"id": "C17", "title": "Limit check is interval membership", "statement": "check_value of a data constraint accepts exactly the numbers inside the interval its limits describe (open, closed or infinite limits).", "quantifier": "every limit kind and every numeric value", "why_tests_cant": "All numbers and boundary cases.", "anchors": ["src/autosar/xml/element.py: LimitObject.check_value"]}
{"id": "C18", "title": "Value tables number consecutively", "statement": "Building a value table from a list of texts gives one scale per text, in order, numbered consecutively from zero, whose limits cover exactly the numbers of the listed texts, each once; tuples keep the limits they name and other items are rejected; make_rational denotes the function offset + factor * x over the given limits.", "quantifier": "every list of texts/(value,text) entries, start number and limits", "why_tests_cant": "Lists of any length with gaps.", "anchors": ["src/autosar/xml/element.py: Computation.make_value_table"]}
{"id": "C19", "title": "Value specification builder mirrors its input", "statement": "ValueSpecification.make_value on nested Python data (numbers, texts, tuples/lists) yields a value specification with the same nesting, order, labels and leaf values.", "quantifier": "every finite nested value", "why_tests_cant": "Nesting depth and width are unbounded.", "anchors": ["src/autosar/xml/element.py: ValueSpecification.make_value, make_value_with_check"]}
{"id": "C20", "title": "Enumeration text is a bijection", "statement": "For every enumeration with an XML mapping and every member, enum_to_xml followed by xml_to_enum (same schema version) returns the member; different members have different texts; texts outside the table are rejected; version-gated texts are rejected in both directions outside their versions.", "quantifier": "every mapped enumeration, every member, every text, every schema version", "why_tests_cant": "All texts and versions; and the two tables are maintained separately by hand.", "anchors": ["src/autosar/xml/enumeration.py: xml_to_enum_map, enum_to_xml_map, xml_to_enum, enum_to_xml"]}
{"id": "C21", "title": "Reference destination safety", "statement": "A reference object can only exist with a destination kind its class accepts; assigning a string creates one only for single-destination classes; assigning another reference succeeds iff its class or its destination matches, and the address string is preserved.", "quantifier": "every reference class, destination and address string", "why_tests_cant": "All class/destination pairs and all strings.", "anchors": ["src/autosar/xml/base.py: BaseRef.__init__, ARObject._check_and_set_reference", "src/autosar/xml/reference.py: all accepted_sub_types"]}
{"id": "C22", "title": "Writer output is well formed", "statement": "For any element tree the emitted text has matching, properly nested start/end tags with correct indentation, and parsing it gives back exactly the tree (content text safe for XML).", "quantifier": "every finite element tree with XML-safe tags, attributes and text", "why_tests_cant": "All tree shapes and strings.", "anchors": ["src/autosar/xml/writer.py: _XMLWriter._add_child, _leave_child, _add_content, _begin_line, _end_line, _attr_to_str"]}
{"id": "C23", "title": "Special characters survive writing", "statement": "Text and attribute content containing <, >, & or quotes is read back unchanged after writing.", "quantifier": "every string", "why_tests_cant": "Any string position can contain a special character.", "anchors": ["src/autosar/xml/writer.py: _add_content, _add_inline_text, _attr_to_str"]}
{"id": "C24", "title": "Package tree round trip", "statement": "Reading the written form of a package hierarchy yields the same hierarchy: same names, same order, same nesting, same elements.", "quantifier": "every finite package tree with unique sibling names over the modelled element kinds", "why_tests_cant": "Unbounded trees.", "anchors": ["src/autosar/xml/writer.py: _write_packages, _write_package", "src/autosar/xml/reader.py: _read_packages, _read_package, _read_package_elements, _read_sub_packages"]}
{"id": "C25", "title": "Value specification round trip", "statement": "Reading the written form of any value specification (text, numerical, array, record, not-available, application value, constant reference; arbitrarily nested) whose texts are not empty and need no escaping gives the same tree with the same labels, texts, references and numbers. (Numbers in hexadecimal or binary format are excluded: the code cannot read them back.)", "quantifier": "every finite value specification tree", "why_tests_cant": "Unbounded nesting.", "anchors": ["src/autosar/xml/writer.py: _write_value_specification_element and callees", "src/autosar/xml/reader.py: _read_value_specification_element and callees"]}
{"id": "C26", "title": "Data type round trip", "statement": "Reading the written form of implementation and application data types (with arbitrarily nested sub-elements and data-definition properties) whose texts are not empty and need no escaping gives the same object, apart from the UUID and from annotations after the first.", "quantifier": "every finite implementation data type tree", "why_tests_cant": "Unbounded nesting and 2^n combinations of optional attributes.", "anchors": ["src/autosar/xml/writer.py: _write_impl_data_type, _write_impl_data_type_element, _write_sw_data_def_props", "src/autosar/xml/reader.py: _read_impl_data_type, _read_impl_data_type_element, _read_sw_data_def_props"]}
{"id": "C27", "title": "Computation method and constraint round trip", "statement": "Reading the written form of compu-methods (scales, limits, rational coefficients, texts) and data constraints gives the same object with the same numbers, apart from the validity of scale constraints.", "quantifier": "every compu-method / data constraint", "why_tests_cant": "2^n combinations of optional parts, unbounded scale lists.", "anchors": ["src/autosar/xml/writer.py: _write_compu_method, _write_data_constraint", "src/autosar/xml/reader.py: _read_compu_method, _read_data_constraint"]}
{"id": "C28", "title": "Base type, unit, mode group and port interface round trip", "statement": "Reading the written form of base types, units, mode declaration groups and port interfaces (without UUID for interfaces, without service kind) gives an equal object; a unit's display name may come back in one piece.", "quantifier": "every such object", "why_tests_cant": "2^n combinations of optional parts, unbounded member lists.", "anchors": ["src/autosar/xml/writer.py: _write_sw_base_type, _write_unit, _write_mode_declaration_group, _write_*_interface", "src/autosar/xml/reader.py: matching readers"]}
{"id": "C29", "title": "Nothing is silently dropped on save", "statement": "Every attribute a user sets on an element (annotations, admin data, UUID, scale validity, service kind) is present after saving and reading back.", "quantifier": "every element and attribute", "why_tests_cant": "Which attribute combinations are lost is not visible to per-attribute tests.", "anchors": ["src/autosar/xml/writer.py: _write_identifiable, _write_admin_data, _write_annotations, _write_impl_data_type, _write_scale_constraint, _write_port_interface"]}
{"id": "C30", "title": "Tolerant reading keeps everything else", "statement": "With stop_on_error off, an element that fails to parse (or repeats a sibling's name) is skipped and all other elements of the document are read in order exactly as if it were absent; with stop_on_error on, reading fails iff some element does.", "quantifier": "every package element list with any subset of bad elements", "why_tests_cant": "All positions and subsets of errors.", "anchors": ["src/autosar/xml/reader.py: _read_package_elements"]}
{"id": "C31", "title": "Schema version round trip and isolation", "statement": "The schema version written into a document's root attributes is the one read back; and the schema version a reader uses for a document depends only on that document.", "quantifier": "every schema version, every history of documents read by one reader", "why_tests_cant": "Histories of reads with one reader object.", "anchors": ["src/autosar/xml/writer.py: _write_document", "src/autosar/xml/reader.py: _read_root_element, _read_schema_version"]}
{"id": "C32", "title": "Communication specs cover the interface", "statement": "Creating a port with com-specs produces one com-spec per named data element/operation/mode group of the interface, each referring to it, and rejects names the interface does not have.", "quantifier": "every port interface and com-spec argument", "why_tests_cant": "Interfaces with any number of elements.", "anchors": ["src/autosar/xml/element.py: ProvidePortComSpec.make_from_port_interface, RequirePortComSpec.make_from_port_interface, SwComponentType.create_p_port/create_r_port"]}
{"id": "C33", "title": "Connector direction is normalized", "statement": "create_connector of two port references creates exactly one connector of the right kind with the provider port on the provider side and the requester on the requester side whichever order the arguments have, and rejects incompatible directions without adding anything.", "quantifier": "every composition and pair of port references", "why_tests_cant": "All pairs of ports and argument orders.", "anchors": ["src/autosar/xml/element.py: CompositionSwComponentType.create_connector, _analyze_port_ref, _create_assembly_connector, _create_delegation_connector"]}
{"id": "C34", "title": "Port access strings create the access they name", "statement": "create_port_access('PREFIX:port/element') adds exactly one access point of the kind determined by prefix, port direction and interface kind, refers to that port and element, and touches no other list.", "quantifier": "every component, port, interface and access string", "why_tests_cant": "Combinations of prefixes, port kinds and element counts; strings unbounded.", "anchors": ["src/autosar/xml/element.py: RunnableEntity.create_port_access and helpers"]}
{"id": "C35", "title": "Access points have unique names", "statement": "Within one runnable, access points of the same kind have pairwise different short-names however many are added.", "quantifier": "every sequence of append_* / create_port_access calls", "why_tests_cant": "History of any length.", "anchors": ["src/autosar/xml/element.py: RunnableEntity.append_data_send_point and other append_* methods"]}
{"id": "C36", "title": "Event creation refers to an existing runnable and gets a fresh name", "statement": "Every create_*_event call either raises or appends exactly one event whose start-on-event reference is the named runnable and whose name is new; failing calls do not change the behavior.", "quantifier": "every sequence of runnable/event creation calls", "why_tests_cant": "Histories of any length, including failures.", "anchors": ["src/autosar/xml/element.py: SwcInternalBehavior.create_*_event, _make_unique_event_name, find_runnable"]}
{"id": "C37", "title": "Port API options", "statement": "create_port_api_options adds options for exactly the selected ports ('*' for all), in case-insensitive name order, each port at most once; unknown names are rejected without effect.", "quantifier": "every component, selection list and history of calls", "why_tests_cant": "All subsets and orders.", "anchors": ["src/autosar/xml/element.py: SwcInternalBehavior.create_port_api_options, append_port_api_option"]}
{"id": "C38", "title": "Behavior settings", "statement": "Default name prefixes: update_settings changes exactly the given settings and get/lookup returns the latest value set.", "quantifier": "every history of updates", "why_tests_cant": "Histories.", "anchors": ["src/autosar/xml/element.py: BehaviorSettings"]}
{"id": "C39", "title": "Document mapping selects elements", "statement": "write_documents writes each package to the document configured for it, containing exactly the elements passing the configured filter; saving is repeatable.", "quantifier": "every workspace, mapping and number of saves", "why_tests_cant": "Histories of saves.", "anchors": ["src/autosar/xml/workspace.py: Workspace.write_documents, _write_document_from_config, _gen_package_to_document_mapping"]}
{"id": "C40", "title": "Reference string splitting", "statement": "split_ref of a joined list of path parts gives the parts back, with and without leading slash; the strict variant rejects exactly empty and absolute strings.", "quantifier": "every list of names without '/'", "why_tests_cant": "All strings.", "anchors": ["src/autosar/base.py: split_ref, split_ref_strict"]}
{"id": "C41", "title": "Component, port and behavior round trip", "statement": "Reading the written form of ports with com-specs, compositions with component prototypes and connectors, application components, internal behaviors, runnables and events gives the same object, up to the number representations of C25-C27.", "quantifier": "every such object within what XML can carry", "why_tests_cant": "2^n combinations of optional parts, unbounded lists of ports, runnables and access points.", "anchors": ["src/autosar/xml/writer.py: _write_application_software_component_type, _write_composition_sw_component_type, _write_swc_internal_behavior, _write_runnable_entity, _write_*_port_prototype, _write_*_event", "src/autosar/xml/reader.py: matching readers"]}
{"id": "C42", "title": "Loading and saving again changes nothing", "statement": "Once a document has been saved and loaded, saving and loading it any further number of times gives exactly the same document and the same text.", "quantifier": "every document within what XML can carry, any number of rounds", "why_tests_cant": "Unbounded number of rounds, all documents.", "anchors": ["src/autosar/xml/document.py", "src/autosar/xml/writer.py: write_file", "src/autosar/xml/reader.py: read_file, read_str"]}
{"id": "C43", "title": "Members inside elements are found by path", "statement": "Looking up, in a workspace, the path of any package, element, port, component prototype, connector, mode, mode transition or implementation data type element finds exactly that object; a lookup never returns an object that is not at a prefix of the path asked for.", "quantifier": "every tree of packages of any depth whose names are non-empty, without '/', and different within each scope", "why_tests_cant": "Unbounded trees, every kind of member, every path.", "anchors": ["src/autosar/xml/element.py: PackageCollection.find, Package.find, SwComponentType.find, CompositionSwComponentType.find, ModeDeclarationGroup.find, ImplementationDataType.find"]}
{"id": "C44", "title": "The generated C types are the types the workspace describes", "statement": "After any sequence of type requests, the type registered for a reference has the name, symbol, emitter, native declaration, sizes, members and references of the element there; and after the generated declarations the C name of every requested type, and of every type it requires, means the C type that its element describes (base types by native declaration, arrays with their size, structures with their members in order), each name being declared once.", "quantifier": "every workspace of type elements, every sequence of requests with failures, every set of types whose names do not collide in C", "why_tests_cant": "Unbounded nesting of types, all workspaces and request histories; a wrong member or size only shows for the type concerned.", "anchors": ["src/autosar/model/implementation.py: ImplementationModel.create_from_element, create_from_ref", "src/autosar/generator/type_generator.py: TypeGenerator._gen_type_defs, _gen_array_type_def, _gen_record_type_def"]}
{"id": "C45", "title": "The generated header can be included anywhere", "statement": "Including Rte_Type.h, whatever macros are defined, gives every generated declaration once and in order after the include of Rte.h, with balanced conditions and braces; including it again gives nothing; C++ compilers see the declarations with C linkage and C compilers see no linkage specification.", "quantifier": "every implementation model for which declarations can be generated, every set of macros defined before", "why_tests_cant": "All models and all macro environments.", "anchors": ["src/autosar/generator/type_generator.py: TypeGenerator._create_code_sequence, write_type_header_str, write_type_header"]}
{"id": "C46", "title": "Runnables are the ones their arguments describe", "statement": "create_runnable succeeds exactly when the arguments describe a runnable: only known keywords, values of the right kinds, and for can_enter_leave only names of exclusive areas of the behavior. The runnable then has the given attributes, a symbol equal to its name unless another or None is given, references to exactly the exclusive areas named, and the given access points in order; it is added at the end of the behavior and nothing else changes. When an exception is raised the behavior is unchanged. After any sequence of create_exclusive_area and create_runnable calls, every area that a runnable can enter by name exists.", "quantifier": "every component position, behavior, name and combination of keyword arguments; every sequence of calls with any outcomes", "why_tests_cant": "26 keyword parameters with several accepted kinds of values each, names resolved against any list of areas, and behaviors built by any number of calls; tests give single combinations", "anchors": ["src/autosar/xml/element.py: SwcInternalBehavior.create_runnable, SwcInternalBehavior.append_runnable, RunnableEntity.__init__, ExecutableEntity.__init__, ExclusiveArea.ref, InternalBehavior.create_exclusive_area", "src/autosar/xml/base.py: ARObject._assign_optional, _assign_optional_strict, _check_and_set_reference"]}
{"id": "C47", "title": "Internal behaviors are the ones their arguments describe", "statement": "create_internal_behavior succeeds exactly when the arguments describe a behavior; the component then holds it, named as given or after the component, with the given areas, events and runnables in order, references to the given data type mapping sets, and one port API option for each port, the last one given. create_exclusive_area adds exactly the described area at the end. When an exception is raised nothing changes.", "quantifier": "every component, behavior, name and combination of keyword arguments", "why_tests_cant": "the arguments range over all combinations of single objects, lists, tuples and other values, and over any number of options for the same port", "anchors": ["src/autosar/xml/element.py: AtomicSoftwareComponentType.create_internal_behavior, AtomicSoftwareComponentType.internal_behavior, SwcInternalBehavior.__init__, SwcInternalBehavior.append_port_api_option, InternalBehavior.__init__, InternalBehavior.create_exclusive_area"]}
{"id": "C48", "title": "Alignment and display format texts are checked", "statement": "Data definition properties accept a text as alignment exactly when it starts with a positive number, a hexadecimal, binary or octal literal, or one of UNSPECIFIED, UNKNOWN, BOOLEAN and PTR, and a text as display format exactly when it starts with a percent sign, an optional flag, optional width and precision and a conversion letter; accepted texts are stored unchanged, all others raise ValueError.", "quantifier": "every text", "why_tests_cant": "regular expressions over all strings; tests try a few texts", "anchors": ["src/autosar/xml/element.py: alignment_type_re, display_format_str_re, SwDataDefPropsConditional.__init__", "src/autosar/xml/base.py: ARObject._assign_int_or_str_pattern, _assign_int_or_str_pattern_optional"]}
{"id": "C49", "title": "Configuration files mean what they say", "statement": "Loading a configuration file is accepted exactly if its sections hold proper namespaces, documents, mappings and settings. Afterwards every role of a configured namespace refers to the package reached from the namespace's base by the configured path, every document entry has added one new empty document called after the entry with exactly the listed packages, in order and with different file names, every mapping entry has added one mapping with its package, types and suffixes, the given settings have the given values, and everything the file does not mention is as before.", "quantifier": "every workspace state and every parsed TOML file (nested tables, arrays and texts of any size)", "why_tests_cant": "files are unbounded nested data and states are arbitrary; tests load a few files", "anchors": ["src/autosar/xml/workspace.py: Workspace.load_config, _create_namespace_from_config, _create_document_from_config, _create_document_mapping_from_config, create_document, create_document_mapping, DocumentConfig, PackageToDocumentMapping", "src/autosar/xml/element.py: BehaviorSettings.update"]}
{"id": "C50", "title": "Port interfaces are what the calls describe", "statement": "Creating a sender-receiver, non-volatile data, parameter, mode switch or client-server interface from arguments succeeds exactly if every argument given is known and of its declared kind, and the interface then holds what was given. Creating a data element, invalidation policy, parameter, operation, argument, error, reference to an error or mode group in an interface succeeds exactly if the arguments describe one; it is then returned, placed last, referred to by its name below the interface, and nothing else changes; otherwise nothing changes at all. After any sequence of calls the operations created are there in order with their names and flags, and have only gained arguments and references.", "quantifier": "every name, every set of keyword arguments of any kind, every interface, every sequence of calls", "why_tests_cant": "argument combinations and call sequences are unbounded; tests build a few interfaces", "anchors": ["src/autosar/xml/element.py: SenderReceiverInterface, NvDataInterface, ParameterInterface, ModeSwitchInterface, ClientServerInterface, ClientServerOperation, ApplicationError, InvalidationPolicy, VariableDataPrototype, ParameterDataPrototype, ArgumentDataPrototype, ModeDeclarationGroupPrototype (constructors, append_* and create_* methods)"]}
{"id": "C51", "title": "Mode declaration groups are what the calls describe", "statement": "Creating a mode declaration group succeeds exactly if its arguments describe one, where modes may be given as objects, names or tuples of a name and a number; a mode created in a group is returned, placed last and referred to by its name below the group, and nothing else changes; a new mode of an unused name is found by its name, and the other modes as before; a group made of names and numbers is the same after saving and loading.", "quantifier": "every name, every set of keyword arguments of any kind, every group, every schema version", "why_tests_cant": "argument combinations are unbounded; tests build a few groups", "anchors": ["src/autosar/xml/element.py: ModeDeclarationGroup, ModeDeclaration, ModeTransition, ModeErrorBehavior", "src/autosar/xml/writer.py: Writer._write_mode_declaration_group", "src/autosar/xml/reader.py: Reader._read_mode_declaration_group"]}
{"id": "C52", "title": "Formatted text is written as marked up and read back", "statement": "A line of text with line breaks, emphasis, index entries, sub- and superscripts and technical terms, and a unit name with sub- and superscripts, can be created exactly from the documented kinds of parts, is written with its parts in order as markup, and is read back with the same parts (adjacent texts joined).", "quantifier": "every language, every kind of line, every list of parts", "why_tests_cant": "the lists of parts are unbounded; tests read lines with one part", "anchors": ["src/autosar/xml/element.py: LanguageLongName, LanguageOverviewParagraph, LanguageParagraph, LanguageVerbatim, SingleLanguageUnitNames, Break, EmphasisText, IndexEntry, Subscript, Superscript, TechnicalTerm", "src/autosar/xml/writer.py: Writer._write_language_long_name, Writer._write_language_overview_paragraph, Writer._write_language_paragraph, Writer._write_language_verbatim, Writer._write_single_language_unit_names", "src/autosar/xml/reader.py: Reader._read_mixed_content_for_long_name, Reader._read_mixed_content_for_overview_paragraph, Reader._read_mixed_content_for_paragraph, Reader._read_mixed_content_for_verbatim, Reader._read_mixed_content_for_unit_names"]}
{"id": "C53", "title": "Data types, their properties and units are what the calls describe", "statement": "Creating data definition properties, implementation and application data types, their elements, data type mapping sets and units succeeds exactly for arguments of the documented names and kinds, and the object then has every given value (numbers converted, texts checked, references of the right kind) and nothing else. Appending adds exactly that element at the end; indexing the properties gives the variant at that place; wrong arguments change nothing.", "quantifier": "every name, every list of keyword arguments with any values, every object that is appended to or extended, every index", "why_tests_cant": "arguments and existing contents are unbounded; tests create a few objects with valid arguments", "anchors": ["src/autosar/xml/element.py: SwBitRepresentation, SwTextProps, SwPointerTargetProps, SwDataDefPropsConditional, SwDataDefProps, SymbolProps, ImplementationDataTypeElement, ImplementationDataType, ApplicationPrimitiveDataType, ApplicationArrayElement, ApplicationArrayDataType, ApplicationRecordElement, ApplicationRecordDataType, DataTypeMappingSet, Unit"]}
{"id": "C54", "title": "A text is read as the number it is written as, or refused", "statement": "Reading a number element, and creating a numerical value from a text, gives a number exactly when the text is a numeral: blanks around it, a sign, decimal digits (or hexadecimal, octal, binary ones behind their prefix where integers of any base are expected) with single underscores between them, a decimal point and a power of ten where floats are expected, or the words for infinity and not a number in any case. The number is the value of those digits and no other. Every other text, and an empty element, is refused with the documented error. A value made from a text beginning with 0x or 0b is written in that base again.", "quantifier": "every text, every element with any text, every requested format", "why_tests_cant": "texts are unbounded; tests read a handful of plain numerals", "anchors": ["src/autosar/xml/reader.py: _read_number, _read_integer, and the readers of numerical elements", "src/autosar/xml/element.py: NumericalValue, PositiveIntegerValue"]}
{"id": "C55", "title": "What is read does not depend on how a file is arranged", "statement": "Reading a document gives the same packages, elements and schema version, or fails with the same error, when properties of different names of an element are put in another order, elements that no reader knows are added between properties, attributes of an element below the root are reordered, or the white space and other text between the children of an element that holds no text changes; any number of such changes, at any depth. Only the order inside collections of different kinds of elements, inside formatted text and inside elements that stand for their first child matters.", "quantifier": "every document, every rearrangement of it at any depth, both values of stop_on_error, every schema version", "why_tests_cant": "the arrangements of a document are unbounded; the tests always present properties in schema order", "anchors": ["src/autosar/xml/reader.py: read_str, read_file, ChildElementMap and every _read_ method", "src/autosar/xml/document.py: Document"]}
{"id": "C56", "title": "Calibration values, value specifications and constants hold what is given", "statement": "ValueList, SwValues, ValueGroup, SwAxisCont, SwValueCont, TextValueSpecification, ArrayValueSpecification, RecordValueSpecification, ApplicationValueSpecification, ConstantReference and ConstantSpecification succeed exactly for arguments of the documented kinds and then hold exactly what was given, in order; append adds one value at the end or fails and changes nothing; make_constant succeeds exactly for the data that make_value accepts, and a constant made from writable data is reloaded with an equal value.", "quantifier": "every keyword argument list, every argument value (numbers, texts, lists and tuples of any length and depth, library objects), every list appended to, every schema version", "why_tests_cant": "arguments are unbounded in length and depth and their kinds combine freely; the tests build a few objects with one or two arguments", "anchors": ["src/autosar/xml/element.py: ValueList, SwValues, ValueGroup, SwAxisCont, SwValueCont, TextValueSpecification, ArrayValueSpecification, RecordValueSpecification, ApplicationValueSpecification, ConstantReference, ConstantSpecification.make_constant"]}
{"id": "C57", "title": "Code, filters and communication specifications hold what is given", "statement": "DataFilter, AutosarEngineeringObject, Code, SwcImplementation, ModeRequestTypeMap, the end-to-end and acknowledgement settings and all twelve kinds of communication specification succeed exactly for arguments of the documented kinds and then hold exactly what was given; append adds one object at the end or fails and changes nothing.", "quantifier": "every name and keyword argument list, every argument value (numbers, texts, lists and tuples of any length, library objects and references of every class), every object appended to", "why_tests_cant": "arguments combine freely and their lists are unbounded; the tests set one or two arguments at a time with values of the right class", "anchors": ["src/autosar/xml/element.py: DataFilter, AutosarEngineeringObject, Code, Implementation, SwcImplementation, ModeRequestTypeMap, E2EProfileCompatibilityProps, EndToEndTransformationComSpecProps, ModeSwitchedAckRequest, TransmissionAcknowledgementRequest, TransmissionComSpecProps, ReceptionComSpecProps, QueuedSenderComSpec, NonqueuedSenderComSpec, ModeSwitchSenderComSpec, NvProvideComSpec, ParameterProvideComSpec, ServerComSpec, QueuedReceiverComSpec, NonqueuedReceiverComSpec, NvRequireComSpec, ParameterRequireComSpec, ModeSwitchReceiverComSpec, ClientComSpec", "src/autosar/xml/base.py: ARObject._assign_optional, _assign_optional_strict, _assign_optional_positive_int"]}
{"id": "C58", "title": "References into components and parts of runnables hold what is given", "statement": "The thirteen references to something inside a component (operation, mode, mode group, variable, trigger, parameter) and the fifteen parts of a runnable (variable and parameter accesses, server call points, triggering points, mode access and switch points, wait points, activation reasons, arguments, exclusive area references) succeed exactly for arguments of the documented kinds and then hold exactly what was given; append adds one reference at the end or fails and changes nothing.", "quantifier": "every name and keyword argument list, every argument value (numbers, texts, lists and tuples of any length, library objects and references of every class), every object appended to", "why_tests_cant": "arguments combine freely and their lists are unbounded; the tests set one or two arguments at a time with values of the right class", "anchors": ["src/autosar/xml/element.py: POperationInAtomicSwcInstanceRef, PModeGroupInAtomicSwcInstanceRef, PTriggerInAtomicSwcTypeInstanceRef, ROperationInAtomicSwcInstanceRef, RModeInAtomicSwcInstanceRef, RModeGroupInAtomicSwcInstanceRef, RVariableInAtomicSwcInstanceRef, RTriggerInAtomicSwcInstanceRef, ArVariableInImplementationDataInstanceRef, VariableInAtomicSWCTypeInstanceRef, AutosarVariableRef, ParameterInAtomicSwcTypeInstanceRef, AutosarParameterRef, VariableAccess, ExecutableEntityActivationReason, ExclusiveAreaRefConditional, RunnableEntityArgument, AsynchronousServerCallPoint, AsynchronousServerCallResultPoint, SynchronousServerCallPoint, ExternalTriggeringPointIdent, ExternalTriggeringPoint, InternalTriggeringPoint, ModeAccessPointIdent, ModeAccessPoint, ModeSwitchPoint, ParameterAccess, WaitPoint"]}
{"id": "C59", "title": "Events and port API options hold what is given", "statement": "The fifteen kinds of event, their make functions, PortDefinedArgumentValue, CommunicationBufferLocking and PortApiOption succeed exactly for arguments of the documented kinds and then hold exactly what was given; make builds the reference to the port and what is in it from its arguments and passes the rest on unchanged; append adds one object at the end or fails and changes nothing.", "quantifier": "every name and keyword argument list, every argument value (numbers, texts, lists and tuples of any length, library objects and references of every class), every object appended to", "why_tests_cant": "arguments combine freely and their lists are unbounded; the tests set one or two arguments at a time with values of the right class", "anchors": ["src/autosar/xml/element.py: RteEvent, AsynchronousServerCallReturnsEvent, BackgroundEvent, DataReceiveErrorEvent.make, DataReceivedEvent.make, DataSendCompletedEvent, DataWriteCompletedEvent, ExternalTriggerOccurredEvent.make, InitEvent, InternalTriggerOccurredEvent, ModeSwitchedAckEvent, OperationInvokedEvent.make, SwcModeManagerErrorEvent.make, SwcModeSwitchEvent.make, TimingEvent, TransformerHardErrorEvent, PortDefinedArgumentValue, CommunicationBufferLocking, PortApiOption"]}
{"id": "C60", "title": "Ports, components and connectors hold what is given", "statement": "ProvidePortPrototype, RequirePortPrototype, PRPortPrototype, ApplicationSoftwareComponentType, CompositionSwComponentType, SwComponentPrototype, PortInCompositionTypeInstanceRef and the three kinds of connector succeed exactly for arguments of the documented kinds and then hold exactly what was given, in order; append adds one object at the end of its list or fails and changes nothing.", "quantifier": "every name and keyword argument list, every argument value (lists and tuples of any length, library objects and references of every class), every object appended to", "why_tests_cant": "arguments combine freely and their lists are unbounded; the tests set one or two arguments at a time with values of the right class", "anchors": ["src/autosar/xml/element.py: ProvidePortPrototype, RequirePortPrototype, PRPortPrototype, SwComponentType, AtomicSoftwareComponentType, ApplicationSoftwareComponentType, SwComponentPrototype, PortInCompositionTypeInstanceRef, SwConnector, AssemblySwConnector, DelegationSwConnector, PassThroughSwConnector, CompositionSwComponentType"]}
{"id": "C61", "title": "A reference to an object says where it is and what it is", "statement": "For every class with a function ref: called on an object below a document or workspace it gives a reference whose text is the object's path and whose kind (the DEST attribute when written) is the name of that class, the name under which objects of the class are written; the path finds the object again. Called on an object that is not below a document it gives None. It never raises an exception, and references of different classes have different kinds.", "quantifier": "all 58 classes with a function ref, every history of attaching objects, every path, every object and schema version written", "why_tests_cant": "the kind has to agree with the reference class, the enumeration and the writer for every class; tests look at a few classes and paths", "anchors": ["src/autosar/xml/element.py: ref (of every class), Element._calc_ref_string", "src/autosar/xml/reference.py: BaseRef", "src/autosar/xml/writer.py: Writer"]}
{"id": "C62", "title": "Elements are put and found by the keys of the package map", "statement": "After create_package_map every key leads to the package at its path, made if necessary, and no other key leads anywhere (RuntimeError before a map exists, KeyError afterwards). add_element(key, e) succeeds exactly when the key is known, e is an element or package and its name is not in use in that package, and otherwise changes nothing. What was added is found by find_element(key, name) and by its path in the workspace, now and after any further calls, and creating the map again with the same path leads to the same package.", "quantifier": "every map, every history of calls on the workspace, its packages and elements, failed calls included", "why_tests_cant": "the map, the package tree and later calls interact over histories of any length; tests add one or two elements", "anchors": ["src/autosar/xml/workspace.py: Workspace.create_package_map, add_element, find_element, get_package", "src/autosar/xml/element.py: Package.append, Package.find, PackageCollection.make_packages"]}
{"id": "C63", "title": "What is found by its path stays found", "statement": "Once find gives an object for a path in a document or workspace, it gives the same object for that path after any further calls (append, create, make_packages, members added to elements), whether they succeed or fail; the short-names along the path lead to it as before.", "quantifier": "every reachable state, every path and every further history of calls", "why_tests_cant": "later calls of any kind and number could replace or hide an object; tests look up right after adding", "anchors": ["src/autosar/xml/element.py: Package.append, Package.create_package, Package.make_packages, Package.find, PackageCollection.append, PackageCollection.find, SwComponentType.append_port, SwComponentType.find"]}
{"id": "C64", "title": "When a document can be saved", "statement": "Saving a document, to a string or a file, succeeds exactly when every object in it has a text: whole floats are below 10^28, hexadecimal and binary formats are on ints, limits of scales are numbers, required parts are present (texts, constants, references of exclusive areas before schema version 50), inline elements stand where they are allowed, assembly connectors join a provided with a required port, and no port interface has a service kind. One object that cannot be saved, at any depth, keeps the whole document from being saved. What survives a round trip can be saved; what was just loaded need not be.", "quantifier": "every document: every package tree, every kind of element, all values of all attributes and every schema version", "why_tests_cant": "the conditions range over all element kinds and all values of all their attributes; tests save a few hand-picked objects", "anchors": ["src/autosar/xml/writer.py: Writer.write_str, Writer.write_file, Writer._write_document, Writer._write_package and all _write methods, _XMLWriter._format_float, _XMLWriter._format_number"]}
{"id": "C65", "title": "Interrupted and failing saves", "statement": "When documents are saved one after the other and the run is interrupted at any point, the files of the documents before hold their complete texts, at most one file holds a beginning of its text, and all other files are as they were; a file that lacks its end, by however little, is never taken for a document. When a document cannot be saved, the documents before it are saved and those after it are untouched. Desired but false: the file to be replaced survives an interrupted or failing save.", "quantifier": "every list of documents and paths, every previous content of the files, every crash point and every division of the text into pieces that reach the file separately", "why_tests_cant": "the crash point and the pieces in which a buffered text reaches the file are chosen by the environment", "anchors": ["src/autosar/xml/writer.py: Writer.write_file, _XMLWriter._open, _XMLWriter._close", "src/autosar/xml/workspace.py: Workspace.write_documents", "src/autosar/xml/reader.py: Reader.read_str, Reader.read_file"]}
{"id": "C66", "title": "What is found in the workspace is found after saving and loading", "statement": "Every element that a document's find returns for a path stands, with its content, at the same path of the text that is written for the document and loaded again. The same holds for the packages a document is configured with: what is found below a configured package is, after saving and loading, below that package in the loaded document, and for packages of the workspace itself the path is the workspace path. Every document whose packages were nested in the order of their making has such a tree. Desired but false: a package can always be saved (a package appended to itself is found, but has no finite tree).", "quantifier": "every history of creations, appends and package creations, every assignment of element contents and package attributes to the objects, every path, every document configuration, every reader", "why_tests_cant": "ranges over all object graphs built through the API, all contents and all paths; joins the in-memory search, the writer and the reader", "anchors": ["src/autosar/xml/element.py: Package.append, Package.find, PackageCollection.find, PackageCollection.append", "src/autosar/xml/workspace.py: Workspace._write_document_from_config", "src/autosar/xml/writer.py: Writer._write_packages", "src/autosar/xml/reader.py: Reader._read_packages"]}
{"id": "C67", "title": "A whole run of write_documents", "statement": "When every configured document and every document mapping can be carried out, write_documents writes all of them: the configured documents in order, then for each mapping in order one file per matching element. What each file holds is determined by the workspace before the run alone, so documents do not influence each other and their order does not matter; the run changes nothing but the documents and the parents of objects. Loaded again, the files hold every element of the configured and mapped packages at its place. The first document or mapping that cannot be carried out ends the run: exactly what comes before it is written. Desired but false: the same for documents configured with nested packages (they change the paths in generated documents), and that generated files do not overwrite each other.", "quantifier": "every history that built the workspace, every list of document configurations and mappings, every position of the first failing one", "why_tests_cant": "ranges over all workspaces and all combinations of documents and mappings, whose effects on the shared package objects could interact", "anchors": ["src/autosar/xml/workspace.py: Workspace.write_documents, Workspace._write_document_from_config, Workspace._gen_package_to_document_mapping", "src/autosar/xml/element.py: PackageCollection.append, Package.append, Identifiable.ref"]}
{"id": "C68", "title": "Any XML spelling of a document is read the same", "statement": "XML offers many ways to write one document: quotes of either kind, white space inside tags, empty-element tags, numeric and named character references, CDATA sections, either kind of line end, an XML declaration or none, a byte order mark, comments and processing instructions around the document element and in front of any tag. read_str accepts exactly the well-formed spellings, no text spells two documents, and all spellings of a document (or of documents that differ only in what C55 says has no meaning) give the same result. The characters that count as white space, name characters, digits and allowed characters are those of the recommendation, character references stand for the UTF-8 sequence of their number, and line ends become newlines. Malformed text is refused and leaves the reader as it was. Desired but false: a comment never changes what is read (inside a text it silently cuts off the rest of the text).", "quantifier": "every text, every document and every pair of its spellings, every reader state and both error modes", "why_tests_cant": "the spellings of one document are infinitely many; that the parser accepts exactly the grammar is a statement about all texts", "anchors": ["src/autosar/xml/reader.py: Reader.read_str, Reader.read_file, Reader._clean_namespace (tags that are not strings), Reader._read_packages"]}
{"id": "C69", "title": "Which prefixes a document uses for its namespaces does not matter", "statement": "Names of elements and attributes are resolved as the recommendation for namespaces says (the innermost declaration of a prefix counts, the default namespace is for elements only, reserved prefixes and namespaces cannot be redefined), and text whose names have no meaning is refused. Of the names the reader drops the ARXML namespace only. read_str gives the same result when the namespace prefixes of a document are renamed consistently, keeping different prefixes apart; in particular the elements may carry a prefix instead of standing in the default namespace, and a document without any namespace is read like the same document in the ARXML namespace. A prefix that is declared nowhere makes read_str refuse the text and leaves the reader as it was. Written documents meet these conditions. Desired but false: a document in another namespace (for example AUTOSAR 3) is refused; it is read, without error, as a document without packages.", "quantifier": "every text, every document, every renaming of its prefixes, every reader state and both error modes", "why_tests_cant": "the choices of prefixes and the places where they are declared are unbounded; tests use the default namespace only", "anchors": ["src/autosar/xml/reader.py: Reader.read_str, Reader.read_file, Reader._clean_namespace, Reader._read_root_element"]}
{"id": "C70", "title": "What is built with the constructors from values that XML can carry can be saved and is read back", "statement": "A document whose packages are created with Package(...), filled with append, and whose elements are created by constructor calls nested to any depth, is written without an exception and every reader reads it back with the same packages, elements and parts, provided every text, number and reference given to a constructor is one that XML can carry. The same holds for each value specification, event, communication specification, runnable and internal behavior on its own. No condition has to be checked on the objects the constructors make, apart from those known to be lost or confused: a UUID where it is not written, equal names of access points of one runnable, an inner port that says not which kind it is, and provided communication specifications of a PR port without required ones.", "quantifier": "every sequence of constructor and append calls, of any nesting depth, with any keyword arguments in any order that XML can carry, every schema version, every reader state and both error modes", "why_tests_cant": "the constructors convert and default their arguments in many ways and can be nested without bound; tests build a few objects each", "anchors": ["src/autosar/xml/element.py: constructors of all element classes, Package.append, SwcInternalBehavior.create_exclusive_area, AtomicSoftwareComponentType.create_internal_behavior", "src/autosar/xml/writer.py: Writer.write_str", "src/autosar/xml/reader.py: Reader.read_str", "src/autosar/xml/document.py: Document.append"]}
{"id": "C71", "title": "Computation methods, data constraints and base types mean the same after saving and loading", "statement": "Creating packages, address methods, base types, computation methods and data constraints gives an object with every given value and nothing else, or an exception if a keyword argument is unknown. A computation made from a list of texts converts the number of a text to that text and converts nothing else; a rational computation converts exactly the numbers between its limits, to offset + factor * x. After saving and loading, a computation method converts the same numbers to the same results in both directions, and every rule of a data constraint, and every scale of it, accepts the same numbers; a constraint made from two limits accepts exactly the numbers between them.", "quantifier": "every name, list of texts, factor, offset, limits, limit types and keyword arguments that XML can carry, every number that is converted or checked, every schema version", "why_tests_cant": "numbers that are converted or checked, and the lengths of tables, are unbounded; tests compare a few attributes and not what the methods mean", "anchors": ["src/autosar/xml/element.py: CompuRational, CompuConst, CompuScale, Computation.make_value_table, Computation.make_rational, CompuMethod, LimitObject.check_value, ScaleConstraint, ConstraintBase, InternalConstraint, PhysicalConstraint, DataConstraintRule, DataConstraint.make_physical, DataConstraint.make_internal, SwBaseType, SwAddrMethod, Package", "src/autosar/xml/writer.py: _write_compu_method, _write_data_constraint", "src/autosar/xml/reader.py: _read_compu_method, _read_data_constraint"]}
{"id": "C72", "title": "Single elements are written and read back by class and element name", "statement": "An object of any of the 148 classes the writer knows, written with write_str_elem under the element name it has in documents, is read back by read_str_elem as the same object of the same class (numbers and optional parts may be held differently); the class is found from the element name, or from the type name for the three classes that share names with others. The text is a well-formed document whose root element has the expected name. A missing or superfluous name is a TypeError; unknown classes, element names and type names are a NotImplementedError. write_file_elem writes the same text for the classes that can be elements of a package and for packages, and refuses the others. Packages, and elements under names the reader does not list, can be written but not read.", "quantifier": "every object of every class in the tables that XML can carry, every element name and type name given, every schema version, every text that is read", "why_tests_cant": "each test covers one object of one class; that the tables of writer and reader fit together for every class and every object is a statement about all of them", "anchors": ["src/autosar/xml/writer.py: Writer.__init__, Writer.write_str_elem, Writer.write_file_elem", "src/autosar/xml/reader.py: Reader.__init__, Reader.read_str_elem"]}
{"id": "C73", "title": "Elements the reader does not process are reported, each name once", "statement": "While a document is read, the name of every child element that the reading methods pass over is reported on stderr exactly once, at the line of the first element of that name passed over, with the path (or the last part of it) of the file read by read_file; the reports are the same however the reader was used before, appear in the order in which elements are found, and are switched off as a whole by warn_on_unprocessed_element. Looking up a child gives the first child of the name, whatever was looked up or skipped before. Desired but false: a warning never names another file than the one being read (read_str_elem after read_file names the old file), and every child that is not read is reported (a second child of a name is neither read nor reported).", "quantifier": "every list of child elements, every sequence of look-ups and skips by the reading methods, every history of reads with one reader, every path and every setting", "why_tests_cant": "the set of names already reported is state that lives across all the methods of a read and across reads; that it never hides or repeats a name is a statement about all histories", "anchors": ["src/autosar/xml/reader.py: ChildElementMap, WrappedElement, Reader._report_unprocessed_elements, Reader._report_unprocessed_element, Reader.read_file, Reader.read_str, Reader.read_str_elem"]}
{"id": "C74", "title": "A reading method depends on exactly the children it asks for, and accounts for the others", "statement": "What is read from an element depends on its name, attributes and text and on the children its reading method asks for, and on nothing else: children of other names, repeated children, the order of children with different names and the text between them have no effect, and every name that is asked for makes a difference in every schema version. A child that is reported as unprocessed has no effect on the result. In a method that reports, every child is read, or repeats the name of one before it, or is of a name that is skipped on purpose, or is reported. Desired but false: a child that has no effect is always reported (14 methods never report anything, and _read_parameter_in_atomic_swc_type_instance_ref asks for MODE-GROUP-IREF, forgets it and does not report it).", "quantifier": "all 131 reading methods with a child element map (the seven of value specifications counted as the one that chooses between them), every schema version, every name, attributes, text and list of children of the element, every state of the reader", "why_tests_cant": "a test reads a few given elements; that no other child can influence the result, and that none is lost without a report, is a statement about all lists of children for each method", "anchors": ["src/autosar/xml/reader.py: Reader._read_* methods that create a ChildElementMap, ChildElementMap, Reader._report_unprocessed_elements"]}
{"id": "C75", "title": "What is on disk during and after a run of write_documents", "statement": "After write_documents has ended without an error, every element below a package that a document is configured with, and every element that belongs to an element chosen by a document mapping, is found in the file of that document: whatever the file held before, every reader loads it and has the element under its path. When the run is interrupted at any point, each of these files is as it was before, or is refused by every reader, or is complete and has its elements; at most one file is neither as before nor complete; files of other paths are never touched. When a document of the run cannot be put together, or the package of a mapping cannot be looked up, everything before it is complete on disk and all other files are as they were. Desired but false: the same when two documents of the run have the same path (elements of the same name in two mapped packages): the element of the first is then nowhere on disk.", "quantifier": "every reachable workspace, every configuration of documents with packages of the workspace and every list of document mappings that can be carried out, every contents that survive a round trip, every division of the texts into pieces, every point of interruption, every earlier state of the disk", "why_tests_cant": "crash points and earlier contents of the disk are unbounded, and the statement joins the heap of objects, the texts written and their parsing", "anchors": ["src/autosar/xml/workspace.py: Workspace.write_documents", "src/autosar/xml/writer.py: Writer.write_file", "src/autosar/xml/reader.py: Reader.read_file, Reader.read_str"]}
{"id": "C76", "title": "Which exceptions loading can end with", "statement": "Whatever the text, Reader.read_str (and read_file) ends with a document or raises one of eight kinds of exceptions: ParseError, DuplicateElement, KeyError, ValueError, TypeError, AttributeError, AssertionError, NotImplementedError; the same holds for read_str_elem and for every reading method applied to any element. Every nesting is read to its end, no text of an enumeration is refused because of its version, and IndexError, RuntimeError, decimal.InvalidOperation, VersionError, InvalidReferenceError and UnboundLocalError are never raised. No kind can be left out: each occurs for a well-formed text, in both settings of stop_on_error. With stop_on_error off, the elements of packages can end the reading with exactly the six kinds other than ParseError and DuplicateElement. Desired but false: that loading a well-formed text can only fail with ParseError or DuplicateElement.", "quantifier": "every text, every schema version of the reader, both settings of stop_on_error, every type name, every reading method and every element it is applied to", "why_tests_cant": "an exception that never occurs cannot be established by any number of malformed files; texts and nesting depths are unbounded", "anchors": ["src/autosar/xml/reader.py: Reader.read_str, Reader.read_file, Reader.read_str_elem, _read_* methods", "src/autosar/xml/exception.py", "src/autosar/xml/enumeration.py: xml_to_enum"]}
{"id": "C77", "title": "Which exceptions saving can end with", "statement": "Whatever the document holds, Writer.write_str (and write_file) ends with a text or raises one of six kinds of exceptions: TypeError, AssertionError, NotImplementedError, KeyError, ValueError, decimal.InvalidOperation. The same holds for write_str_elem, with or without a tag, and for write_file_elem, for an object of any class. No element is closed that was not opened, and IndexError, VersionError, RuntimeError, AttributeError, ParseError and DuplicateElement are never raised. No kind can be left out: each occurs when a document with one element is saved.", "quantifier": "every document of the model, both settings of skip_root_attr, every object, every schema version of the writer, every tag or none", "why_tests_cant": "an exception that never occurs cannot be established by any number of documents; documents are of unbounded size and depth", "anchors": ["src/autosar/xml/writer.py: Writer.write_str, Writer.write_file, Writer.write_str_elem, Writer.write_file_elem, _write_* methods, _format_number, _format_float", "src/autosar/xml/enumeration.py: enum_to_xml"]}
