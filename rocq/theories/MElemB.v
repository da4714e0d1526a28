(** Elements that contain elements of their own kind, modelled by hand: data definition
    properties, elements of implementation data types, value specifications.
    Sources: /repo/src/autosar/xml/element.py:60-70, 1650-1838, 1892-1953, 2504-2828,
    /repo/src/autosar/xml/writer.py:1423-1620, 2482-2670, 2751-2777,
    /repo/src/autosar/xml/reader.py:1671-1826, 1852-1899, 2832-3062, 3163-3189.
    No proofs in this file. *)
From Verif Require Import Base MNames MNum MXml MEnum MRefTab MRef MCodec MElem0 MElem1 MElemA.

(** ** Reader methods that call each other on descendants *)

(** Depth of an element. *)
Fixpoint height (x : xml) : nat :=
  match x with Elem _ _ _ kids _ => S (fold_right (fun y n => Nat.max (height y) n) O kids) end.
(** [step self] is the body of a method that calls [self] on descendants of its argument: [deep n]
    runs it with at most [n] nested calls, [recursive] with as many as the argument is deep, which
    is always enough (proved in PElemB.v). *)
Fixpoint deep {A} (n : nat) (step : (xml -> result A) -> xml -> result A) (x : xml) : result A :=
  match n with O => Err OutOfFuel | S m => step (deep m step) x end.
(** A recursive method, run to the depth of its argument. *)
Definition recursive {A} (step : (xml -> result A) -> xml -> result A) (x : xml) : result A := deep (height x) step x.

(** ** Data definition properties *)

(** alignment_type_re.match(value) is not None (element.py:66-67): the pattern must match at the
    start only, so the text starts with a digit or a keyword *)
Definition alignment_ok (s : string) : bool :=
  match s with String c _ => match digit_val c with Some _ => true | None => false end | "" => false end ||
  starts_with "UNSPECIFIED" s || starts_with "UNKNOWN" s || starts_with "BOOLEAN" s || starts_with "PTR" s.
(** [0-9]* at the start *)
Fixpoint skip_digits (s : string) : string :=
  match s with String c r => match digit_val c with Some _ => skip_digits r | None => s end | "" => "" end.
(** display_format_str_re.match(value) is not None (element.py:69-70) *)
Definition display_format_ok (s : string) : bool :=
  match s with
  | String "%" r =>
      let r := match r with String c r' => if mem_char c " -+#" then r' else r | "" => "" end in
      let r := skip_digits r in
      let r := match r with
               | String "." (String c r') => match digit_val c with Some _ => skip_digits r' | None => r end
               | _ => r
               end in
      match r with String c _ => mem_char c "diouxXfeEgGcs" | "" => false end
  | _ => false
  end.
(** _assign_int_or_str_pattern_optional, xml/base.py:66-86 *)
Definition assign_alignment (o : option index) : result (option index) :=
  match o with Some (IText s) => if alignment_ok s then Ok o else Err ValueError | _ => Ok o end.
(** The same for display_format.  Simplification: an int is not a display format. *)
Definition assign_display_format (o : option string) : result (option string) :=
  match o with Some s => if display_format_ok s then Ok o else Err ValueError | None => Ok None end.
(** int(text, 0), or the text itself (reader.py:1719-1725) *)
Definition rd_alignment (x : xml) : result index :=
  match text_opt x with
  | None => Err TypeError
  | Some s => Ok (match int0 s with Some z => IInt z | None => IText s end)
  end.

(** SwPointerTargetProps, element.py:1650-1672, over the type of data definition properties *)
Record SwPointerTargetProps_ (R : Type) := mkSwPointerTargetProps {
  SwPointerTargetProps_target_category : option string;
  SwPointerTargetProps_sw_data_def_props : option R;
  SwPointerTargetProps_function_ptr_signature_ref : option ref }.
Arguments mkSwPointerTargetProps {R}.
Arguments SwPointerTargetProps_target_category {R}.
Arguments SwPointerTargetProps_sw_data_def_props {R}.
Arguments SwPointerTargetProps_function_ptr_signature_ref {R}.
(** SwDataDefPropsConditional, element.py:1678-1789, over the type of pointer target properties *)
Record SwDataDefPropsConditional_ (P : Type) := mkSwDataDefPropsConditional {
  dd_display_presentation : option DisplayPresentation;
  dd_step_size : option pynum;
  dd_annotations : list Annotation;
  dd_sw_addr_method_ref : option ref;
  dd_alignment : option index;
  dd_base_type_ref : option ref;
  dd_bit_representation : option SwBitRepresentation;
  dd_calibration_access : option SwCalibrationAccess;
  dd_text_props : option SwTextProps;
  dd_compu_method_ref : option ref;
  dd_data_constraint_ref : option ref;
  dd_display_format : option string;
  dd_impl_data_type_ref : option ref;
  dd_impl_policy : option SwImplPolicy;
  dd_additional_native_type_qualifier : option string;
  dd_intended_resolution : option pynum;
  dd_interpolation_method : option string;
  dd_is_virtual : option bool;
  dd_ptr_target_props : option P;
  dd_unit_ref : option ref }.
Arguments mkSwDataDefPropsConditional {P}.
Arguments dd_display_presentation {P}. Arguments dd_step_size {P}. Arguments dd_annotations {P}.
Arguments dd_sw_addr_method_ref {P}. Arguments dd_alignment {P}. Arguments dd_base_type_ref {P}.
Arguments dd_bit_representation {P}. Arguments dd_calibration_access {P}. Arguments dd_text_props {P}.
Arguments dd_compu_method_ref {P}. Arguments dd_data_constraint_ref {P}. Arguments dd_display_format {P}.
Arguments dd_impl_data_type_ref {P}. Arguments dd_impl_policy {P}. Arguments dd_additional_native_type_qualifier {P}.
Arguments dd_intended_resolution {P}. Arguments dd_interpolation_method {P}. Arguments dd_is_virtual {P}.
Arguments dd_ptr_target_props {P}. Arguments dd_unit_ref {P}.
(** SwDataDefProps, element.py:1794-1838 *)
Inductive SwDataDefProps :=
  mkSwDataDefProps (variants : list (SwDataDefPropsConditional_ (SwPointerTargetProps_ SwDataDefProps))).
(** element.py:1650-1675, tied *)
Definition SwPointerTargetProps := SwPointerTargetProps_ SwDataDefProps.
(** element.py:1678-1789, tied *)
Definition SwDataDefPropsConditional := SwDataDefPropsConditional_ SwPointerTargetProps.
(** The attribute variants, element.py:1792-1838 *)
Definition SwDataDefProps_variants (e : SwDataDefProps) : list SwDataDefPropsConditional :=
  match e with mkSwDataDefProps l => l end.

(** SwPointerTargetProps.is_empty, xml/base.py:17-29 *)
Definition SwPointerTargetProps_is_empty {R} (e : SwPointerTargetProps_ R) : bool :=
  unset (SwPointerTargetProps_target_category e) && unset (SwPointerTargetProps_sw_data_def_props e) &&
  unset (SwPointerTargetProps_function_ptr_signature_ref e).
(** _write_sw_pointer_target_props, writer.py:1544-1562; [self] writes data definition
    properties *)
Definition write_sw_pointer_target_props_ {R} (self : R -> out) (e : SwPointerTargetProps_ R) : out :=
  if SwPointerTargetProps_is_empty e then empty "SW-POINTER-TARGET-PROPS" else
  node "SW-POINTER-TARGET-PROPS" [] (cat [
    if_set (SwPointerTargetProps_target_category e) (fun a => content "TARGET-CATEGORY" (Ok a));
    if_set (SwPointerTargetProps_sw_data_def_props e) self;
    if_set (SwPointerTargetProps_function_ptr_signature_ref e) (fun a => write_ref "FUNCTION-POINTER-SIGNATURE-REF" a) ]).
(** SwDataDefPropsConditional.is_empty, xml/base.py:17-29 *)
Definition SwDataDefPropsConditional_is_empty {P} (e : SwDataDefPropsConditional_ P) : bool :=
  unset (dd_display_presentation e) && unset (dd_step_size e) && no_items (dd_annotations e) &&
  unset (dd_sw_addr_method_ref e) && unset (dd_alignment e) && unset (dd_base_type_ref e) &&
  unset (dd_bit_representation e) && unset (dd_calibration_access e) && unset (dd_text_props e) &&
  unset (dd_compu_method_ref e) && unset (dd_data_constraint_ref e) && unset (dd_display_format e) &&
  unset (dd_impl_data_type_ref e) && unset (dd_impl_policy e) && unset (dd_additional_native_type_qualifier e) &&
  unset (dd_intended_resolution e) && unset (dd_interpolation_method e) && unset (dd_is_virtual e) &&
  unset (dd_ptr_target_props e) && unset (dd_unit_ref e).
(** _write_sw_data_def_props_conditional and _write_sw_data_def_props_content,
    writer.py:1441-1505; [self] writes pointer target properties *)
Definition write_sw_data_def_props_conditional_ {P} (v : N) (self : P -> out) (e : SwDataDefPropsConditional_ P) : out :=
  if SwDataDefPropsConditional_is_empty e then empty "SW-DATA-DEF-PROPS-CONDITIONAL" else
  node "SW-DATA-DEF-PROPS-CONDITIONAL" [] (cat [
    if_set (dd_display_presentation e) (fun a => content "DISPLAY-PRESENTATION" (enum_text em_DisplayPresentation a));
    if_set (dd_step_size e) (fun a => content "STEP-SIZE" (format_float a));
    if_some (dd_annotations e) (write_annotations (dd_annotations e));
    if_set (dd_sw_addr_method_ref e) (fun a => write_ref "SW-ADDR-METHOD-REF" a);
    if_set (dd_alignment e) (fun a => content "SW-ALIGNMENT" (Ok (index_text a)));
    if_set (dd_base_type_ref e) (fun a => write_ref "BASE-TYPE-REF" a);
    if_set (dd_bit_representation e) (fun a => write_sw_bit_represenation v a);
    if_set (dd_calibration_access e) (fun a => content "SW-CALIBRATION-ACCESS" (enum_text em_SwCalibrationAccess a));
    if_set (dd_text_props e) (fun a => write_sw_text_props v a);
    if_set (dd_compu_method_ref e) (fun a => write_ref "COMPU-METHOD-REF" a);
    if_set (dd_display_format e) (fun a => content "DISPLAY-FORMAT" (Ok a));
    if_set (dd_data_constraint_ref e) (fun a => write_ref "DATA-CONSTR-REF" a);
    if_set (dd_impl_data_type_ref e) (fun a => write_ref "IMPLEMENTATION-DATA-TYPE-REF" a);
    if_set (dd_impl_policy e) (fun a => content "SW-IMPL-POLICY" (enum_text em_SwImplPolicy a));
    if_set (dd_additional_native_type_qualifier e) (fun a => content "ADDITIONAL-NATIVE-TYPE-QUALIFIER" (Ok a));
    if_set (dd_intended_resolution e) (fun a => content "SW-INTENDED-RESOLUTION" (format_number a));
    if_set (dd_interpolation_method e) (fun a => content "SW-INTERPOLATION-METHOD" (Ok a));
    if_set (dd_is_virtual e) (fun a => content "SW-IS-VIRTUAL" (Ok (format_boolean a)));
    if_set (dd_ptr_target_props e) self;
    if_set (dd_unit_ref e) (fun a => write_ref "UNIT-REF" a) ]).
(** _write_sw_data_def_props, writer.py:1423-1439 *)
Fixpoint write_sw_data_def_props (v : N) (tag : string) (e : SwDataDefProps) : out :=
  match e with
  | mkSwDataDefProps l =>
      if no_items l then empty tag else
      node tag [] (if_some l (node "SW-DATA-DEF-PROPS-VARIANTS" [] (for_each l (fun c =>
        write_sw_data_def_props_conditional_ v (fun p =>
          write_sw_pointer_target_props_ (fun r => write_sw_data_def_props v "SW-DATA-DEF-PROPS" r) p) c))))
  end.
(** writer.py:1544-1562, tied *)
Definition write_sw_pointer_target_props (v : N) (e : SwPointerTargetProps) : out :=
  write_sw_pointer_target_props_ (fun r => write_sw_data_def_props v "SW-DATA-DEF-PROPS" r) e.
(** writer.py:1441-1505, tied *)
Definition write_sw_data_def_props_conditional (v : N) (e : SwDataDefPropsConditional) : out :=
  write_sw_data_def_props_conditional_ v (write_sw_pointer_target_props v) e.

(** _read_sw_pointer_target_props, reader.py:1808-1826; [self] reads data definition properties *)
Definition read_sw_pointer_target_props_ {R} (v : N) (self : xml -> result R) (x : xml) : result (SwPointerTargetProps_ R) :=
  let k := x_kids x in
  let* d_target_category := child_text "TARGET-CATEGORY" k in
  let* d_sw_data_def_props := child "SW-DATA-DEF-PROPS" k self in
  let* d_function_ptr_signature_ref := child "FUNCTION-POINTER-SIGNATURE-REF" k (read_ref rc_FunctionPtrSignatureRef v) in
  Ok (mkSwPointerTargetProps d_target_category d_sw_data_def_props d_function_ptr_signature_ref).
(** data["annotations"], with the constructor's default (element.py:1740-1752) *)
Definition annotations_of (o : option (list Annotation)) : list Annotation := match o with None => [] | Some l => l end.
(** _read_sw_data_def_props_conditional and _read_sw_data_def_props_content, reader.py:1697-1783;
    [self] reads pointer target properties *)
Definition read_sw_data_def_props_conditional_ {P} (v : N) (self : xml -> result P) (x : xml) : result (SwDataDefPropsConditional_ P) :=
  let k := x_kids x in
  let* d_display_presentation := child "DISPLAY-PRESENTATION" k (rd_enum em_DisplayPresentation) in
  let* d_step_size := child "STEP-SIZE" k rd_float in
  let* d_annotations := child "ANNOTATIONS" k read_annotations in
  let* d_sw_addr_method_ref := child "SW-ADDR-METHOD-REF" k (read_ref rc_SwAddrMethodRef v) in
  let* d_alignment := child "SW-ALIGNMENT" k rd_alignment in
  let* d_base_type_ref := child "BASE-TYPE-REF" k (read_ref rc_SwBaseTypeRef v) in
  let* d_bit_representation := child "SW-BIT-REPRESENTATION" k (read_sw_bit_representation v) in
  let* d_calibration_access := child "SW-CALIBRATION-ACCESS" k (rd_enum em_SwCalibrationAccess) in
  let* d_text_props := child "SW-TEXT-PROPS" k (read_sw_text_props v) in
  let* d_compu_method_ref := child "COMPU-METHOD-REF" k (read_ref rc_CompuMethodRef v) in
  let* d_data_constraint_ref := child "DATA-CONSTR-REF" k (read_ref rc_DataConstraintRef v) in
  let* d_display_format := child_text "DISPLAY-FORMAT" k in
  let* d_impl_data_type_ref := child "IMPLEMENTATION-DATA-TYPE-REF" k (read_ref rc_ImplementationDataTypeRef v) in
  let* d_impl_policy := child "SW-IMPL-POLICY" k (rd_enum em_SwImplPolicy) in
  let* d_additional_native_type_qualifier := child_text "ADDITIONAL-NATIVE-TYPE-QUALIFIER" k in
  let* d_intended_resolution := child "SW-INTENDED-RESOLUTION" k rd_number in
  let* d_interpolation_method := child_text "SW-INTERPOLATION-METHOD" k in
  let* d_is_virtual := child "SW-IS-VIRTUAL" k rd_boolean in
  let* d_ptr_target_props := child "SW-POINTER-TARGET-PROPS" k self in
  let* d_unit_ref := child "UNIT-REF" k (read_ref rc_UnitRef v) in
  let* alignment := assign_alignment d_alignment in
  let* display_format := assign_display_format d_display_format in
  Ok (mkSwDataDefPropsConditional d_display_presentation d_step_size (annotations_of d_annotations) d_sw_addr_method_ref
        alignment d_base_type_ref d_bit_representation d_calibration_access d_text_props d_compu_method_ref
        d_data_constraint_ref display_format d_impl_data_type_ref d_impl_policy d_additional_native_type_qualifier
        d_intended_resolution d_interpolation_method d_is_virtual d_ptr_target_props d_unit_ref).
(** _read_sw_data_def_props and _read_sw_data_def_props_variants, reader.py:1671-1695 *)
Definition read_sw_data_def_props_ (v : N) (self : xml -> result SwDataDefProps) (x : xml) : result SwDataDefProps :=
  let* l := children "SW-DATA-DEF-PROPS-VARIANTS" "SW-DATA-DEF-PROPS-CONDITIONAL" (x_kids x)
              (read_sw_data_def_props_conditional_ v (read_sw_pointer_target_props_ v self)) in
  Ok (mkSwDataDefProps l).
(** reader.py:1671-1696, tied *)
Definition read_sw_data_def_props (v : N) (x : xml) : result SwDataDefProps := recursive (read_sw_data_def_props_ v) x.
(** reader.py:1808-1826, tied *)
Definition read_sw_pointer_target_props (v : N) (x : xml) : result SwPointerTargetProps :=
  read_sw_pointer_target_props_ v (read_sw_data_def_props v) x.
(** reader.py:1698-1793, tied *)
Definition read_sw_data_def_props_conditional (v : N) (x : xml) : result SwDataDefPropsConditional :=
  read_sw_data_def_props_conditional_ v (read_sw_pointer_target_props v) x.

(** ** Elements of implementation data types *)

(** ImplementationDataTypeElement, element.py:1892-1931 *)
Inductive ImplementationDataTypeElement := mkImplementationDataTypeElement {
  ImplementationDataTypeElement_ident : identifiable;
  ImplementationDataTypeElement_sw_data_def_props : option SwDataDefProps;
  ImplementationDataTypeElement_array_size : option Z;
  ImplementationDataTypeElement_array_impl_policy : option ArrayImplPolicy;
  ImplementationDataTypeElement_array_size_handling : option ArraySizeHandling;
  ImplementationDataTypeElement_array_size_semantics : option ArraySizeSemantics;
  ImplementationDataTypeElement_sub_elements : list ImplementationDataTypeElement;
  ImplementationDataTypeElement_is_optional : option bool }.
(** _write_implementation_data_type_element and its group, writer.py:1584-1619: no UUID *)
Fixpoint write_implementation_data_type_element (v : N) (e : ImplementationDataTypeElement) : out :=
  match e with
  | mkImplementationDataTypeElement ident sw_data_def_props array_size array_impl_policy array_size_handling
      array_size_semantics sub_elements is_optional =>
  node "IMPLEMENTATION-DATA-TYPE-ELEMENT" [] (cat [
    write_referrable ident;
    write_multilanguage_referrable ident;
    write_identifiable ident;
    if_set array_impl_policy (fun a => content "ARRAY-IMPL-POLICY" (enum_text em_ArrayImplPolicy a));
    if_set array_size (fun a => content "ARRAY-SIZE" (Ok (zstr a)));
    if_set array_size_handling (fun a => content "ARRAY-SIZE-HANDLING" (enum_text em_ArraySizeHandling a));
    if_set array_size_semantics (fun a => content "ARRAY-SIZE-SEMANTICS" (enum_text em_ArraySizeSemantics a));
    if_set is_optional (fun a => content "IS-OPTIONAL" (Ok (format_boolean a)));
    if_some sub_elements (node "SUB-ELEMENTS" [] (for_each sub_elements (write_implementation_data_type_element v)));
    if_set sw_data_def_props (fun a => write_sw_data_def_props v "SW-DATA-DEF-PROPS" a) ])
  end.
(** _read_implementation_data_type_element and its group, reader.py:1852-1899 *)
Definition read_implementation_data_type_element_ (v : N) (self : xml -> result ImplementationDataTypeElement) (x : xml)
  : result ImplementationDataTypeElement :=
  let k := x_kids x in
  let* d_ident := read_ident (x_attrs x) k in
  let* d_array_impl_policy := child "ARRAY-IMPL-POLICY" k (rd_enum em_ArrayImplPolicy) in
  let* d_array_size := child "ARRAY-SIZE" k rd_int in
  let* d_array_size_handling := child "ARRAY-SIZE-HANDLING" k (rd_enum em_ArraySizeHandling) in
  let* d_array_size_semantics := child "ARRAY-SIZE-SEMANTICS" k (rd_enum em_ArraySizeSemantics) in
  let* d_is_optional := child "IS-OPTIONAL" k rd_boolean in
  let* d_sub_elements := children "SUB-ELEMENTS" "IMPLEMENTATION-DATA-TYPE-ELEMENT" k self in
  let* d_sw_data_def_props := child "SW-DATA-DEF-PROPS" k (read_sw_data_def_props v) in
  let* ident := new_identifiable d_ident in
  let* array_size := opt_positive d_array_size in
  Ok (mkImplementationDataTypeElement ident d_sw_data_def_props array_size d_array_impl_policy d_array_size_handling
        d_array_size_semantics d_sub_elements d_is_optional).
(** reader.py:1852-1899, tied *)
Definition read_implementation_data_type_element (v : N) (x : xml) : result ImplementationDataTypeElement :=
  recursive (read_implementation_data_type_element_ v) x.

(** ** Value specifications *)

(** SwValueCont, element.py:2504-2522 *)
Record SwValueCont := mkSwValueCont {
  SwValueCont_unit_ref : option ref;
  SwValueCont_unit_display_name : option SingleLanguageUnitNames;
  SwValueCont_sw_array_size : option ValueList;
  SwValueCont_sw_values_phys : option SwValues }.
(** SwValueCont.is_empty, xml/base.py:17-29 *)
Definition SwValueCont_is_empty (e : SwValueCont) : bool :=
  unset (SwValueCont_unit_ref e) && unset (SwValueCont_unit_display_name e) && unset (SwValueCont_sw_array_size e) &&
  unset (SwValueCont_sw_values_phys e).
(** _write_sw_value_cont and its group, writer.py:2751-2777 *)
Definition write_sw_value_cont (v : N) (e : SwValueCont) : out :=
  if SwValueCont_is_empty e then empty "SW-VALUE-CONT" else
  node "SW-VALUE-CONT" [] (cat [
    if_set (SwValueCont_unit_ref e) (fun a => write_ref "UNIT-REF" a);
    if_set (SwValueCont_unit_display_name e) (fun a => write_unit_names "UNIT-DISPLAY-NAME" a);
    if_set (SwValueCont_sw_array_size e) (fun a => write_value_list v a);
    if_set (SwValueCont_sw_values_phys e) (fun a => write_sw_values v a) ]).
(** _read_sw_value_cont and its group, reader.py:3162-3187 *)
Definition read_sw_value_cont (v : N) (x : xml) : result SwValueCont :=
  let k := x_kids x in
  let* d_unit_ref := child "UNIT-REF" k (read_ref rc_UnitRef v) in
  let* d_unit_display_name := child "UNIT-DISPLAY-NAME" k read_unit_names in
  let* d_sw_array_size := child "SW-ARRAYSIZE" k (read_value_list v) in
  let* d_sw_values_phys := child "SW-VALUES-PHYS" k (read_sw_values v) in
  Ok (mkSwValueCont d_unit_ref d_unit_display_name d_sw_array_size d_sw_values_phys).

(** The subclasses of ValueSpecification, element.py:2641-2828.  Simplification: labels are
    texts, a default pattern is an int, and its unused format is left out. *)
Inductive ValueSpecificationElement :=
| TextValueSpecification (label value : option string)
| NumericalValueSpecification (label : option string) (value : option number)
| NotAvailableValueSpecification (label : option string) (default_pattern : option Z)
| ArrayValueSpecification (label : option string) (elements : list ValueSpecificationElement)
| RecordValueSpecification (label : option string) (fields : list ValueSpecificationElement)
| ApplicationValueSpecification (label category : option string) (sw_axis_conts : list SwAxisCont) (sw_value_cont : option SwValueCont)
| ConstantReference (label : option string) (constant_ref : option ref).
(** _write_value_specification_group, writer.py:2615-2621 *)
Definition write_value_specification_group (label : option string) : out :=
  if_set label (fun a => content "SHORT-LABEL" (Ok a)).
(** _write_value_specification_element, writer.py:2623-2632, with the writers of the classes,
    writer.py:2482-2613, 2657-2671 *)
Fixpoint write_value_specification_element (v : N) (e : ValueSpecificationElement) : out :=
  match e with
  | TextValueSpecification label value =>
      if unset label && unset value then empty "TEXT-VALUE-SPECIFICATION" else
      node "TEXT-VALUE-SPECIFICATION" [] (cat [
        write_value_specification_group label;
        if_set value (fun a => content "VALUE" (Ok a)) ])
  | NumericalValueSpecification label value =>
      if unset label && unset value then empty "NUMERICAL-VALUE-SPECIFICATION" else
      node "NUMERICAL-VALUE-SPECIFICATION" [] (cat [
        write_value_specification_group label;
        if_set value (fun a => content "VALUE" (format_any a)) ])
  | NotAvailableValueSpecification label default_pattern =>
      if unset label && unset default_pattern then empty "NOT-AVAILABLE-VALUE-SPECIFICATION" else
      node "NOT-AVAILABLE-VALUE-SPECIFICATION" [] (cat [
        write_value_specification_group label;
        if_set default_pattern (fun a => content "DEFAULT-PATTERN" (Ok (zstr a))) ])
  | ArrayValueSpecification label elements =>
      if unset label && no_items elements then empty "ARRAY-VALUE-SPECIFICATION" else
      node "ARRAY-VALUE-SPECIFICATION" [] (cat [
        write_value_specification_group label;
        if_some elements (node "ELEMENTS" [] (for_each elements (write_value_specification_element v))) ])
  | RecordValueSpecification label fields =>
      if unset label && no_items fields then empty "RECORD-VALUE-SPECIFICATION" else
      node "RECORD-VALUE-SPECIFICATION" [] (cat [
        write_value_specification_group label;
        if_some fields (node "FIELDS" [] (for_each fields (write_value_specification_element v))) ])
  | ApplicationValueSpecification label category sw_axis_conts sw_value_cont =>
      if unset label && unset category && no_items sw_axis_conts && unset sw_value_cont then empty "APPLICATION-VALUE-SPECIFICATION" else
      node "APPLICATION-VALUE-SPECIFICATION" [] (cat [
        write_value_specification_group label;
        if_set category (fun a => content "CATEGORY" (Ok a));
        if_some sw_axis_conts (node "SW-AXIS-CONTS" [] (for_each sw_axis_conts (fun a => write_sw_axis_cont v a)));
        if_set sw_value_cont (fun a => write_sw_value_cont v a) ])
  | ConstantReference label constant_ref =>
      if unset label && unset constant_ref then empty "CONSTANT-REFERENCE" else
      node "CONSTANT-REFERENCE" [] (cat [
        write_value_specification_group label;
        if_set constant_ref (fun a => write_ref "CONSTANT-REF" a) ])
  end.
(** NotAvailableValueSpecification.__init__, element.py:2669-2678 *)
Definition new_not_available (label : option string) (p : option Z) : result ValueSpecificationElement :=
  match p with
  | Some z => if (z <? 0)%Z then Err ValueError else Ok (NotAvailableValueSpecification label p)
  | None => Ok (NotAvailableValueSpecification label None)
  end.
(** _read_value_specification_element, reader.py:3006-3015, with the readers of the classes,
    reader.py:2834-3003, 3042-3063 *)
Definition read_value_specification_element_ (v : N) (self : xml -> result ValueSpecificationElement) (x : xml)
  : result ValueSpecificationElement :=
  let k := x_kids x in
  let tag := x_tag x in
  if String.eqb tag "TEXT-VALUE-SPECIFICATION" then
    let* label := child_text "SHORT-LABEL" k in
    let* value := child_text "VALUE" k in
    Ok (TextValueSpecification label value)
  else if String.eqb tag "NUMERICAL-VALUE-SPECIFICATION" then
    let* label := child_text "SHORT-LABEL" k in
    let* value := child "VALUE" k rd_number in
    Ok (NumericalValueSpecification label (option_map Bare value))
  else if String.eqb tag "NOT-AVAILABLE-VALUE-SPECIFICATION" then
    let* label := child_text "SHORT-LABEL" k in
    let* default_pattern := child "DEFAULT-PATTERN" k rd_positive in
    new_not_available label default_pattern
  else if String.eqb tag "ARRAY-VALUE-SPECIFICATION" then
    let* label := child_text "SHORT-LABEL" k in
    let* elements := children_any "ELEMENTS" k self in
    Ok (ArrayValueSpecification label elements)
  else if String.eqb tag "RECORD-VALUE-SPECIFICATION" then
    let* label := child_text "SHORT-LABEL" k in
    let* fields := children_any "FIELDS" k self in
    Ok (RecordValueSpecification label fields)
  else if String.eqb tag "APPLICATION-VALUE-SPECIFICATION" then
    let* label := child_text "SHORT-LABEL" k in
    let* category := child_text "CATEGORY" k in
    let* sw_axis_conts := children "SW-AXIS-CONTS" "SW-AXIS-CONT" k (read_sw_axis_cont v) in
    let* sw_value_cont := child "SW-VALUE-CONT" k (read_sw_value_cont v) in
    Ok (ApplicationValueSpecification label category sw_axis_conts sw_value_cont)
  else if String.eqb tag "CONSTANT-REFERENCE" then
    let* label := child_text "SHORT-LABEL" k in
    let* constant_ref := child "CONSTANT-REF" k (read_ref rc_ConstantRef v) in
    Ok (ConstantReference label constant_ref)
  else Err KeyError.
(** reader.py:3006-3015, tied *)
Definition read_value_specification_element (v : N) (x : xml) : result ValueSpecificationElement :=
  recursive (read_value_specification_element_ v) x.
