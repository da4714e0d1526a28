# Formal model of cogu/autosar in Rocq

The model is a set of shallow, executable Gallina functions that mirror the Python
functions branch by branch.  Exceptions are values of `result` (`Ok` / `Err`), the class of
the exception included.  Functions that change an object return the changed object beside the
outcome, so that "a failing call changes nothing" is an equality of states.

| files | content |
|---|---|
| `rocq/theories/Base.v`, `M*.v` | the model: definitions only, each with a comment citing the source lines and the simplifications |
| `rocq/theories/S*.v` | small specifications that do not use the model's functions |
| `rocq/theories/P*.v` | proofs |
| `rocq/theories/Props*.v` | the theorems `Cxx_...`, non-vacuity `Example`s beside them, `Print Assumptions` |
| `tools/gen_enum.py`, `tools/gen_codec.py` | generators of MEnum.v, MRefTab.v and of the uniform part of the codec (MElem1-5, PElem1-5); their output is committed, the build does not run them |
| `seeded/LOG.jsonl` | wrong programs tried against the theorems |

## Properties

`properties.jsonl` has the full statements; `MANIFEST.json` the exact theorem names.

| id | title | modelled | proved by | theorems in | status |
|---|---|---|---|---|---|
| C01 | A made package can be found | MHeap: heap of collections, packages, elements with identities, parent links, child lists and name maps; make_packages, find with partition("/") | induction on the path; frame lemma for lookups | PropsHeap.v | proved |
| C02 | make_packages is idempotent and only adds | MHeap: heap of collections, packages, elements with identities, parent links, child lists and name maps; make_packages, find with partition("/") | induction on the path; frame lemma for lookups | PropsHeap.v | proved |
| C03 | Sibling short-names stay unique | MHeap: step function over an operation type | invariant by induction over all histories; equality of whole states on Err | PropsHeap.v | proved |
| C04 | A reference leads back to its element | MHeap: _calc_ref_string following parent links, fuel = number of objects | invariant "an attached item is the map entry of its parent", induction on depth | PropsHeap.v | proved |
| C05 | References identify elements | MHeap: _calc_ref_string following parent links, fuel = number of objects | invariant "an attached item is the map entry of its parent", induction on depth | PropsHeap.v | proved |
| C06 | Rejected additions change nothing | MHeap: step function over an operation type | invariant by induction over all histories; equality of whole states on Err | PropsHeap.v | proved |
| C07 | Detached objects have no reference | MHeap: _calc_ref_string following parent links, fuel = number of objects | invariant "an attached item is the map entry of its parent", induction on depth | PropsHeap.v | proved |
| C08 | Generated unique names are unique | MNames: make_unique_name_in_list on name lists, the regular expression modelled by hand | decimal printing and parsing lemmas, maximum of the indices; counter-examples for C09 and C35 | PropsNames.v | proved |
| C09 | Repeated same-name additions stay distinct | MNames: make_unique_name_in_list on name lists, the regular expression modelled by hand | decimal printing and parsing lemmas, maximum of the indices; counter-examples for C09 and C35 | PropsNames.v | partial |
| C10 | Type creation order is complete and dependency-first | MTypes: type library as finite map, dependency trees, queue of get_type_creation_order, generator filter | induction on trees and a queue measure; topological order lemma | PropsTypes.v | proved |
| C11 | Generated header declares each type once, after its dependencies | MTypes: type library as finite map, dependency trees, queue of get_type_creation_order, generator filter | induction on trees and a queue measure; topological order lemma | PropsTypes.v | partial |
| C12 | Implementation model caching | MTypes: type library as finite map, dependency trees, queue of get_type_creation_order, generator filter | induction on trees and a queue measure; topological order lemma | PropsTypes.v | proved |
| C13 | Package reference of a role | MWork: namespaces as finite maps, posix join and normpath; template application with fuel | invariant on created references, induction on the dependency depth | PropsWork.v | proved |
| C14 | Template application | MWork: namespaces as finite maps, posix join and normpath; template application with fuel | invariant on created references, induction on the dependency depth | PropsWork.v | proved |
| C15 | Numeric text format round trip | MNum: decimals for floats, Z for ints; printing and parsing of numerals | numeral round-trip lemmas | PropsNum.v | partial |
| C16 | Integer literal formats | MNum: decimals for floats, Z for ints; printing and parsing of numerals | numeral round-trip lemmas | PropsNum.v | partial |
| C17 | Limit check is interval membership | MNum: decimals for floats, Z for ints; printing and parsing of numerals | numeral round-trip lemmas | PropsNum.v | proved |
| C18 | Value tables number consecutively | MNum: value tables, rational functions | list induction, exact rational arithmetic | PropsNum.v | proved |
| C19 | Value specification builder mirrors its input | MValue: make_value on Python data as a nested inductive type | nested induction against an inductive relation | PropsValue.v | proved |
| C20 | Enumeration text is a bijection | MEnum, MRefTab (generated), MRef | case analysis over all members and all strings | PropsEnum.v | proved |
| C21 | Reference destination safety | MEnum, MRefTab (generated), MRef | case analysis over all members and all strings | PropsEnum.v | proved |
| C22 | Writer output is well formed | MXml: line buffer of the writer, XML parser for the emitted subset | induction on trees; characterization of the texts that survive | PropsXml.v | proved |
| C23 | Special characters survive writing | MXml: line buffer of the writer, XML parser for the emitted subset | induction on trees; characterization of the texts that survive | PropsXml.v | partial |
| C24 | Package tree round trip | MArxml over all codec files: document to characters and back | composition of class lemmas, induction on package trees | PropsArxml.v, PropsKept.v | proved |
| C25 | Value specification round trip | MCodec, MElem*: writer and reader method of each class | one lemma "read (write e) = norm e" per class; independent relations in SElem | PropsElem.v | proved |
| C26 | Data type round trip | MCodec, MElem*: writer and reader method of each class | one lemma "read (write e) = norm e" per class; independent relations in SElem | PropsElem.v, PropsKept.v | proved |
| C27 | Computation method and constraint round trip | MCodec, MElem*: writer and reader method of each class | one lemma "read (write e) = norm e" per class; independent relations in SElem | PropsElem.v | proved |
| C28 | Base type, unit, mode group and port interface round trip | MCodec, MElem*: writer and reader method of each class | one lemma "read (write e) = norm e" per class; independent relations in SElem | PropsElem.v, PropsKept.v | proved |
| C29 | Nothing is silently dropped on save | same | refutations for all values; injectivity of saving up to norm_document | PropsElem.v | partial |
| C30 | Tolerant reading keeps everything else | MArxml: tolerant and strict reading | induction over children; refutation for other exceptions | PropsArxml.v | partial |
| C31 | Schema version round trip and isolation | MArxml: reader state over a history of documents | induction over histories; refutation | PropsArxml.v | partial |
| C32 | Communication specs cover the interface | MPort: com-spec constructors with keyword arguments, create_p_port, create_r_port, create_pr_port | soundness and completeness against a specification of requested com-specs | PropsPort.v | partial |
| C33 | Connector direction is normalized | MConn, MFind: create_connector | case analysis, resolution of the references made | PropsConn.v | partial |
| C34 | Port access strings create the access they name | MAccess: create_port_access with caller dicts in a heap | exact effect per text, induction over histories | PropsAccess.v | partial |
| C35 | Access points have unique names | MNames: make_unique_name_in_list on name lists, the regular expression modelled by hand | decimal printing and parsing lemmas, maximum of the indices; counter-examples for C09 and C35 | PropsNames.v | partial |
| C36 | Event creation refers to an existing runnable and gets a fresh name | MEvent: create_*_event, create_port_api_options | exact effect per call, induction over histories | PropsEvent.v | partial |
| C37 | Port API options | MEvent: create_*_event, create_port_api_options | exact effect per call, induction over histories | PropsEvent.v | partial |
| C38 | Behavior settings | MWork: settings map | induction over histories | PropsWork.v | proved |
| C39 | Document mapping selects elements | MWork: documents configured and mapped | induction over mappings | PropsDocs.v | proved |
| C40 | Reference string splitting | Base: string functions | string induction | PropsHeap.v | proved |
| C41 | Component, port and behavior round trip | MCodec, MElem*: writer and reader method of each class | one lemma "read (write e) = norm e" per class; independent relations in SElem | PropsElem.v, PropsKept.v | proved |
| C42 | Loading and saving again changes nothing | all of the codec | idempotence of the norm functions, class by class | PropsStable.v | proved |
| C43 | Members inside elements are found by path | MFind: lookup in trees with typed elements | induction on the tree | PropsConn.v | proved |
| C44 | The generated C types are the types the workspace describes | MTypes, MHeader: registered types, emitted declarations | invariant that types mirror elements; C meaning of declarations by induction along the emission order | PropsHeader.v | partial |
| C45 | The generated header can be included anywhere | MHeader: header lines | preprocessor semantics, induction on the declarations | PropsHeader.v | partial |
| C46 | Runnables are the ones their arguments describe | MRunnable: create_runnable, create_exclusive_area, create_internal_behavior with keyword arguments | exact characterization of success argument by argument, induction over histories | PropsRunnable.v | partial |
| C47 | Internal behaviors are the ones their arguments describe | MRunnable: create_runnable, create_exclusive_area, create_internal_behavior with keyword arguments | exact characterization of success argument by argument, induction over histories | PropsRunnable.v | partial |
| C48 | Alignment and display format texts are checked | MElemB: pattern checks of alignment and display format | equivalence with a semantics of regular expressions | PropsFormat.v | partial |
| C49 | Configuration files mean what they say | MConfig: load_config and the methods it calls, on parsed files | induction over the entries of each section; reduction to create_namespace (C13) | PropsConfig.v | partial |
| C50 | Port interfaces are what the calls describe | MIface: port interfaces, their parts and mode declaration groups created from keyword arguments | exact characterization of success argument by argument, induction over histories, round trip by C28 | PropsIface.v | partial |
| C51 | Mode declaration groups are what the calls describe | MIface: port interfaces, their parts and mode declaration groups created from keyword arguments | exact characterization of success argument by argument, induction over histories, round trip by C28 | PropsIface.v | proved |
| C52 | Formatted text is written as marked up and read back | MCodec: lines of text and unit names with inline elements, writers and readers of mixed content; MXml: inline elements and text after elements | induction over the parts; the result of the reader loop determines the form of what it read | PropsInline.v | partial |
| C53 | Data types, their properties and units are what the calls describe | MData: constructors of data definition properties, data types, elements, mapping sets and units from keyword arguments; append, extend, indexing | exact characterization of success argument by argument; grammar of decimal texts; induction over the extended list | PropsData.v | partial |
| C54 | A text is read as the number it is written as, or refused | MNum: int(text), int(text, 0), float(text) with blanks, signs, prefixes, underscores; MCodec, MElemA, MElemB: the element readers | a separate grammar of numerals (SLiteral); both directions by induction on digits; uniqueness of decimals in lowest terms | PropsLiteral.v | proved |
| C55 | What is read does not depend on how a file is arranged | all readers of MCodec, MElem*, MArxml | corresponding documents as an inductive equivalence; one lemma per reader by a tactic over the reader building blocks, recursive readers by induction on depth | PropsOrder.v | proved |
| C56 | Calibration values, value specifications and constants hold what is given | MConst: constructors of calibration values, value specifications and constants from keyword arguments; append; make_constant | exact characterization of success argument by argument; induction over the made value for the reload | PropsConst.v | partial |
| C57 | Code, filters and communication specifications hold what is given | MParts: constructors of code, filters and communication specifications from keyword arguments; append functions | exact characterization of success argument by argument | PropsParts.v | proved |
| C58 | References into components and parts of runnables hold what is given | MPoint: constructors of references into components and of the parts of runnables from keyword arguments; append functions | exact characterization of success argument by argument | PropsPoint.v | partial |
| C59 | Events and port API options hold what is given | MOccur: constructors and make functions of events and port API options from keyword arguments; append functions | exact characterization of success argument by argument | PropsOccur.v | partial |
| C60 | Ports, components and connectors hold what is given | MComp: constructors of ports, components and connectors from keyword arguments; append functions | exact characterization of success argument by argument; induction over the com-specs | PropsComp.v | partial |
| C61 | A reference to an object says where it is and what it is | MSelf: the functions ref of all classes, on top of the reference table (MRefTab) and the object heap (MHeap) | case analysis over the classes; composition with C04 and C07; schema_name is an independent table of AUTOSAR names | PropsSelf.v | proved |
| C62 | Elements are put and found by the keys of the package map | MWork, MMap: package map on top of the object heap; histories of calls | invariant of map and heap over all histories; lookups are monotone | PropsMap.v | proved |
| C63 | What is found by its path stays found | MHeap: step function over an operation type | extension order on states: kinds and names stay, name maps and member lists only grow; induction over histories | PropsMap.v | proved |
| C64 | When a document can be saved | MArxml and the MElem files: the writers with their exceptions | SSave states by class what can be saved, without the writer; an equivalence for every writer by cases on its blocks, mutual induction for value specifications and data type elements, induction over package trees | PropsSave.v | partial |
| C65 | Interrupted and failing saves | MFile: files as texts, truncation and appended pieces; MXml: the parser | the parser reads from the left: what it has accepted stays accepted and the rest must be blank (PPrefix, induction on fuel); induction over the row of saves | PropsFile.v | partial |
| C66 | What is found in the workspace is found after saving and loading | MHeap, MWork: objects and search; MArxml: documents, writer and reader; SReload: the tree below an object | the tree of an object as a relation to the heap; induction over trees and over paths; C24 for the text, C39 for the configured document | PropsReload.v | partial |
| C67 | A whole run of write_documents | MWork: write_documents and everything below it | a relation between the states before and during the run that keeps contents, names and search results; induction over the documents and the mappings; references of packages survive because appended packages still have a collection as parent | PropsRun.v | partial |
| C68 | Any XML spelling of a document is read the same | MXml: the XML parser as lxml reads text; MArxml: read_str | the parser is proved sound and complete against an inductive grammar (SSpell.v), piece by piece by induction over the fuel and over the derivations; combined with the rearrangements of C55 | PropsSpell.v | partial |
| C69 | Which prefixes a document uses for its namespaces does not matter | MNs: namespaces as lxml resolves them, _clean_namespace; MArxml: read_str | by induction over the tree: the renamed document resolves, under renamed bindings, to the same names | PropsNs.v | partial |
| C70 | What is built with the constructors from values that XML can carry can be saved and is read back | MPack, MData, MIface, MConst, MParts, MComp, MEvent, MPort, MAccess, MRunnable, MPoint: constructors; MElem*, MArxml: writing and reading | each constructor, given fit arguments, makes an object that meets the condition of the round trip (PMade, PMade2); induction over the number of nested calls and over the appends (PBuilt); then C24, C25 and C41 | PropsBuilt.v | proved |
| C71 | Computation methods, data constraints and base types mean the same after saving and loading | MMeth, MPack: constructors and convenience methods; MElemA: writing and reading; MNum: check_value | from C27: equal numbers convert and compare alike (PMeth); value tables by induction over the list | PropsMeth.v | proved |
| C72 | Single elements are written and read back by class and element name | MDispatch: the tables of Writer.__init__ and Reader.__init__, write_str_elem, write_file_elem, read_str_elem | case by case over the classes from the round trips of C25-C28, C41 and C52; the lists of names by computation | PropsDispatch.v | proved |
| C73 | Elements the reader does not process are reported, each name once | MReport: the map of children with its marks, the set of observed names, the lines printed, the three read methods | entries of the map stay the first children and their marks are the names asked for; the reports are the first elements of each name in the list of all that is left over | PropsReport.v | partial |
| C74 | A reading method depends on exactly the children it asks for, and accounts for the others | MLook.v: for each method the calls of get and skip in order (with those of the methods the map is passed on to), whether it reports, and the reader of MElem*.v | PLook.v: one lemma per method, rewriting every look-up in the reader; PUsed.v: one witness per method and name, found by computation with the schema version left open; PropsLook.v | PropsLook.v | partial |
| C75 | What is on disk during and after a run of write_documents | the models of C67 (MWork.v) and C65 (MFile.v), joined; SDisk.v says which element is due in which file | PropsDisk.v: from C67, C65, C24 and C66; PropsDisk2.v: runs that fail | PropsDisk.v, PropsDisk2.v | partial |
| C76 | Which exceptions loading can end with | the readers of MCodec.v, MElem*.v, MArxml.v, MDispatch.v; exceptions are values there | PRaise.v: one lemma per reading method, found by a tactic that follows the structure of the reader; recursive methods by induction on the height of the element; PropsRaise.v: one text per kind, by computation | PropsRaise.v | partial |
| C77 | Which exceptions saving can end with | the writers of MCodec.v, MElem*.v, MArxml.v, MDispatch.v and the XML text layer of MXml.v; exceptions are values there | PRaiseW.v: one lemma per writing method, found by a tactic that follows the structure of the writer, recursive classes by induction; PRaiseD.v: documents and single elements; PropsRaiseW.v: one element per kind, by computation | PropsRaiseW.v | proved |

*partial* means: part of the English statement is false of the code or not proved.  Where the
faithful model violates the statement, the counter-example is a theorem `..._refuted` (for all
values where possible), and the strongest true restriction is proved next to it; the note in
`MANIFEST.json` says which part.  There is no property that could not be expressed.

## Trusted base

* Coq's kernel, 8.16.1.  No native_compute; `vm_compute` is used in examples and in the exhaustive
  case analyses over enumerations.
* `Print Assumptions` of every property theorem is printed by the build: each one answers
  "Closed under the global context".  No axiom is used, neither own nor of the standard library.
  (A checker that lists all axioms in the loaded environment also sees the 7 parameters of
  `Coq.ssr.ssrunder`, which the standard library's Lia loads through ssreflect; no theorem
  depends on them.)
* The standard library only: Lists, Strings, ZArith, NArith, QArith, Lia.  No functors, no module
  types, no plugins beyond those of the standard library.
* The correspondence of the model with the Python code, established by reading (the code was
  never run), and of the modelled builtins (`str.partition`, `str.split`, `str.upper`, `repr` of floats,
  `int(text, 0)`, `float`, `decimal.Decimal`, dict order, `sorted`, `re.match` on one pattern,
  `posixpath.normpath`, lxml's parser for XML 1.0 in UTF-8 without DTD and its resolution of namespaces, where the
  validity of namespace URIs is not checked) with Python's.
* The generators, as far as the comments with source lines are concerned; what they generate is
  checked by the kernel like everything else.

## What is modelled

| source | model |
|---|---|
| base.py | Base.v (split_ref, split_ref_strict) |
| xml/base.py | MRef.v, MCodec.v, MPort.v (attribute assignment: optional, strict, references, casts, positive ints) |
| xml/enumeration.py | MEnum.v: every Enum class, every table entry, version gates |
| xml/reference.py | MRefTab.v: every reference class with its accepted destinations |
| xml/document.py | MArxml.v, MHeap.v |
| xml/element.py | attributes of every class the writer knows (MElem*.v); package tree and references (MHeap, MFind); naming (MNames); numbers, limits, scales (MNum, MElemA); make_value (MValue); ports, com-specs (MPort); connectors (MConn); events and port API options (MEvent); access points (MAccess); runnables, exclusive areas, internal behaviors (MRunnable); port interfaces and mode declaration groups (MIface); data types, their properties and units (MData); calibration values, value specifications and constants (MConst); code, filters and com-specs (MParts); references into components and parts of runnables (MPoint); events and port API options from keyword arguments (MOccur); ports, components and connectors from keyword arguments (MComp); references to objects themselves (MSelf); settings (MWork); packages and address methods (MPack); computation methods, data constraints and base types (MMeth) |
| xml/writer.py | the XML writer (MXml), number formatting (MNum), every element method (MCodec with inline elements, MElem*), documents (MArxml), files (MFile), the tables of classes and single elements (MDispatch) |
| xml/reader.py | parsing (MXml) and namespaces (MNs), child maps and errors (MCodec), every element method (MElem*), documents, tolerant mode, schema versions (MArxml), the tables of names and single elements (MDispatch), warnings about unprocessed elements (MReport), what each reading method asks for, skips and reports (MLook) |
| xml/workspace.py | namespaces, templates, settings, documents and mappings, package map (MWork, MMap, MHeap), configuration files after parsing (MConfig) |
| xml/template.py | MWork |
| model/element.py, model/implementation.py | MTypes |
| generator/type_generator.py | selection and order of the types, declarations (MTypes), the header around them (MHeader) |

## What is not modelled

* Constructors that check nothing (SwBaseType, CompuMethod, CompuScale, DataTypeMap and others): arguments of other than
  the documented types are not modelled (MMeth.v); objects are the records of MElem*.v, with fields of the documented types.
* Warnings and messages: which exception class is raised is modelled, its text is not.
* Objects have no identity outside MHeap.v; aliasing of one object in two places is therefore only
  covered by the package-tree properties (and, for argument dicts, by MAccess.v).
* File system: writing and reading a file is the text written and read; MFile.v adds truncation, pieces of text and interruption (C65),
  but not what a failing save has written before the exception.
* Floats are the shortest decimals that denote them; rounding of arithmetic does not occur in
  the modelled code, `float(text)` is exact for texts the writer makes.  For other texts it gives the
  exact decimal value of the text (C54), not the nearest double; overflow to infinity and underflow to
  zero are therefore not modelled.
* The limit of 4300 digits on `int(text)`, and digits and blanks outside ASCII.
* XML input with a document type declaration, in an encoding other than UTF-8, or with bytes that are not UTF-8; names
  beyond ASCII are taken as they are.
* Non-ASCII case mapping (`upper`, `lower`).
* Python's recursion limit.

## What saving and loading changes

The functions `norm_*` (one per class, in MElem*/SElem) say exactly what comes back.  Everything else is
equal.  The changes are:
1. numbers are re-read from their text (a float with an integral value in a number-typed field comes
   back as int or float as the reader decides; the value is the same);
2. the parts of a unit display name are merged into one;
3. only the first annotation of data definition properties is kept;
4. the validity of a scale constraint is lost;
5. wrappers of numerical values in default or decimal format are removed;
6. the service kind of an interface, the UUID and the administrative data are lost.

## Findings (defects of the code that the theorems exhibit)

* Nothing is escaped when writing (C23); negative hexadecimal and binary literals are written but cannot be
  read (C16, C25); floats of 1e28 and above cannot be written (C15); NaN passes every limit check (C17).
* A decimal text with leading zeros is an int in one reader, refused by another and a float as a numerical
  value; a blank in front of 0x loses the format (C54).
* An element of unknown name before the value of a constant or an initial value is taken for the value; of two
  schema locations the last counts (C55).
* UUIDs, administrative data, annotations after the first, scale validity and service kinds are lost (C26, C29).
* Tolerant reading still aborts on exceptions other than parse errors (C30).
* A reader keeps the schema version of the previous document when a document names none (C31).
* The unique-name helper makes duplicates when both `n` and `n_0` exist; runnables can hold access points of
  the same name (C09, C35).
* make_packages with an empty path component fails after having made the packages before it (C06); a package
  appended to itself gives a parent cycle, ref() then does not terminate (C07).
* A lone com-spec object given to create_p_port / create_r_port is dropped; pairs are rejected for interfaces
  with one part; the provided side of a PR-port is rejected unless the required side is a list (C32).
* Pass-through connectors are not normalized, delegation connectors do not check directions (C33).
* Texts that create no access point at all are accepted; a single parameter cannot be left unnamed; one dict
  shared by two texts loses its name after the first (C34).
* A failing mode-switch event renames an existing event (C36); unknown port names are reported after the
  options of the known ones were stored (C37).
* Reading a runnable renames access points of one list that share a name: two accesses `A` are read as `A_0` and
  `A` (C41).
* create_runnable sorts the areas named in can_enter_leave, drops references given together with names, stores the
  names in runs_insides as paths, ignores nesting orders that are no list, and accepts equal names (C46);
  create_internal_behavior replaces an existing behavior silently (C47).
* Line breaks, emphasis, index entries, sub- and superscripts in texts are written but never read back: every such
  text raises an error; superscripts are not even accepted when creating a text; text after a technical term, or
  after a script in a unit name, is read as the text before the first one, or raises `TypeError` (C52).
* Alignments and display formats are only checked at their start: `PTR!` and `%d!` are accepted (C48).
* A single possible error of an interface, and texts in the list of error references of an operation, are declared but always raise `TypeError`; data elements of a wrong type raise `UnboundLocalError`; arguments of operations never have a reference; parts of equal names are accepted (C50).
* A unit whose physical dimension is given as a text refers to its own display name instead; record elements given in a tuple are ignored; `extend` with a wrong element keeps the elements before it; elements of data types never have a reference (C53).
* The text label of a value group, though documented, raises `TypeError`; values, elements and fields given in a tuple
  are ignored without an error; a lone numerical value is refused by ValueList and accepted by SwValues; a value group
  given as physical values is stored and its label never written (C56).
* Context references of a variable reference (C58) and disabled modes of an event (C59) given in a tuple are ignored without an error; a tuple of one mode raises `IndexError` and one of three is accepted although two are written (C59).
* `PRPortPrototype` looks at the required com-specs to decide whether the provided ones are a list, and takes com-specs of either direction in either argument (C60).
* A configuration file that is rejected has already changed the workspace (C49).
* `create_document(path)` without packages always raises `TypeError`, `create_document_mapping` with one suffix text always raises `AttributeError`, although both signatures allow them (C49).
* Any name defined in the element module, such as `re`, is accepted as an element type of a document mapping; a setting called `update` is accepted and makes every later file with settings fail (C49).
* Interfaces with a service kind cannot be saved, the enum has no XML texts; a loaded document may be unsavable: a unit factor of 1e30 or an empty VT (C64).
* Saving truncates the file before the document is looked at: a document that cannot be saved, or an interruption, destroys the old file (C65).
* A package can be appended to itself or a descendant; saving such a document never ends (C66).
* A document configured with a package inside another package changes the paths in the documents generated in the same run; elements of the same name in two mapped packages are written to the same file, the first is lost (C67).
* A comment inside a text silently cuts off the rest of the text: `<SHORT-NAME>Pa<!-- x -->ck</SHORT-NAME>` is read as `Pa` (C68).
* A document in another namespace than that of ARXML 4, such as an AUTOSAR 3 document, is read without error as a document without packages (C69).
* Saving configured documents twice fails, since the packages are appended to the documents again (C39).
* Names after a port, component prototype or connector in a path are ignored by find (C43).
* The generated header opens `extern "C"` under `#ifndef __cplusplus`: C compilers get it, C++ compilers do not (C45).
* Types of one short-name in two packages collide in the header; the symbol of a type is not used; arrays of
  arrays can never be requested (C44).

## Wrong programs

`seeded/LOG.jsonl` has one line per edit of the model (definition, edit, claim it breaks, lemmas that fail).
When an edit survived, the specification was tightened and the line says which theorem.
