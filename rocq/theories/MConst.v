(** Creating calibration values, value specifications and constants.
    Source: /repo/src/autosar/xml/element.py and xml/base.py.  No proofs in this file.
    Positional arguments other than the name are passed as keywords.  Objects are values; functions
    that change one return the changed value.
    Simplification: a bool is kept as the int it equals. *)
From Verif Require Import Base MNum MXml MEnum MRefTab MRef MCodec MElem0 MElem1 MElemA MElemB MElemC MElem2 MElemD MElem3 MElem4 MElemE MElem5 MElemF MArxml MFind MValue MEvent MPort MAccess MRunnable MIface MData.
Open Scope list_scope.

(** ** Attribute values *)
(** isinstance(value, <class>), xml/base.py:102-110, element.py:2491-2501, 2519-2522, 2754-2760 *)
Definition axis_category_of (o : lib_object) : option CalibrationAxisCategory := match o with OCalibrationAxisCategory e => Some e | _ => None end.
Definition unit_names_of (o : lib_object) : option SingleLanguageUnitNames := match o with OUnitNames e => Some e | _ => None end.
Definition array_size_of (o : lib_object) : option ValueList := match o with OValueList e => Some e | _ => None end.
Definition axis_of (o : lib_object) : option SwAxisCont := match o with OSwAxisCont e => Some e | _ => None end.
Definition value_cont_of (o : lib_object) : option SwValueCont := match o with OSwValueCont e => Some e | _ => None end.
Definition specification_of (o : lib_object) : option ValueSpecificationElement := match o with OValueSpecification e => Some e | _ => None end.
(** isinstance(value, SwValues), element.py:2501, 2522.  A ValueGroup is one, element.py:2452; its label is
    left out because it is not written here (writer.py:2674-2687 does not know it). *)
Definition sw_values_of (o : lib_object) : option SwValues :=
  match o with
  | OSwValues e => Some e
  | OValueGroup _ values => Some (mkSwValues values)
  | _ => None
  end.
(** if isinstance(a, <class>): append(a) elif isinstance(a, list): for elem in a: append(elem); anything
    else is ignored.  element.py:2431-2436, 2693-2698, 2721-2726 *)
Definition lenient {A} (convert : arg -> result A) (a : arg) : result (list A) :=
  match a with
  | AList l => mapM convert l
  | _ => match convert a with Ok x => Ok [x] | Err _ => Ok [] end
  end.

(** ** Lists of values *)
(** ValueList.append, element.py:2382-2389 *)
Definition number_of (a : arg) : result number :=
  match a with
  | ABool b => Ok (Bare (NInt (if b then 1 else 0)))
  | ANum n => Ok (Bare n)
  | AObj (ONumericalValue v) => Ok (Wrapped v)
  | _ => Err TypeError
  end.
(** ValueList.__init__, element.py:2373-2380 *)
Definition make_value_list (values : arg) : result ValueList :=
  let* l := match values with
            | ANone => Ok []
            | ABool _ | ANum _ => let* x := number_of values in Ok [x]
            | _ => match iterable values with Some l => mapM number_of l | None => Err TypeError end
            end in
  Ok (mkValueList l).
(** ValueList.append, element.py:2382-2389 *)
Definition append_number (v : ValueList) (a : arg) : result ValueList :=
  let* x := number_of a in Ok (mkValueList (ValueList_values v ++ [x])).
(** SwValues.append, element.py:2438-2449 *)
Definition sw_value_of (a : arg) : result sw_value :=
  match a with
  | ABool b => Ok (SwNumber (Bare (NInt (if b then 1 else 0))))
  | ANum n => Ok (SwNumber (Bare n))
  | AStr s => Ok (SwText (Some s))
  | AObj (ONumericalValue v) => Ok (SwNumber (Wrapped v))
  | AObj (OValueGroup label values) => Ok (SwGroup label values)
  | _ => Err TypeError
  end.
(** SwValues.__init__, element.py:2428-2436 *)
Definition make_sw_values (values : arg) : result SwValues :=
  let* l := lenient sw_value_of values in Ok (mkSwValues l).
(** SwValues.append, element.py:2438-2449 *)
Definition append_sw_value (v : SwValues) (a : arg) : result SwValues :=
  let* x := sw_value_of a in Ok (mkSwValues (SwValues_values v ++ [x])).
(** The label of a ValueGroup, element.py:2463-2469; MultilanguageLongName.__init__, 660-672; append, 674-679;
    LanguageLongName.__init__, 643-651; LanguageSpecific.__init__, 580-582.  Simplification: the second
    component of a tuple is a str or None, lists of parts are not modelled. *)
Definition group_label (a : arg) : result (list lang_text) :=
  match a with
  | AObj (OLongName l) => Ok l
  | AObj (OLanguageLongName t) => Ok [t]
  | ATuple (AObj (OLanguage g) :: AStr s :: _) => Ok [mkLang g [PText s]]
  | ATuple (AObj (OLanguage g) :: ANone :: _) => Ok [mkLang g []]
  | ATuple (AObj (OLanguage _) :: _ :: _) => Err TypeError
  | ATuple (_ :: _ :: _) => Err AssertionError
  | ATuple _ => Err IndexError
  | _ => Err TypeError
  end.
(** ValueGroup.__init__, element.py:2458-2469: the label and the values *)
Definition new_value_group (kw : keyword_args) : result (option (list lang_text) * list sw_value) :=
  let* _ := check_keywords ["label"; "values"] kw in
  let* values := make_sw_values (kwarg "values" kw) in
  let* label := optional group_label (kwarg "label" kw) in
  Ok (label, SwValues_values values).

(** ** Containers of calibration values *)
(** sw_axis_index, element.py:2494-2499.  A bool is kept as the text that is written for it,
    writer.py:2744-2745. *)
Definition axis_index (a : arg) : result index :=
  match a with
  | ABool b => Ok (IText (if b then "True" else "False"))
  | ANum (NInt z) => Ok (IInt z)
  | AStr s => Ok (IText s)
  | _ => Err TypeError
  end.
(** SwAxisCont.__init__, element.py:2478-2501 *)
Definition new_axis_cont (kw : keyword_args) : result SwAxisCont :=
  let* _ := check_keywords ["category"; "unit_ref"; "unit_display_name"; "sw_axis_index"; "sw_array_size"; "sw_values_phys"] kw in
  let* category := optional (strict axis_category_of) (kwarg "category" kw) in
  let* unit := opt_ref_strict rc_UnitRef (kwarg "unit_ref" kw) in
  let* name := optional (strict unit_names_of) (kwarg "unit_display_name" kw) in
  let* index := optional axis_index (kwarg "sw_axis_index" kw) in
  let* size := optional (strict array_size_of) (kwarg "sw_array_size" kw) in
  let* values := optional (strict sw_values_of) (kwarg "sw_values_phys" kw) in
  Ok (mkSwAxisCont category unit name index size values).
(** SwValueCont.__init__, element.py:2510-2522 *)
Definition new_value_cont (kw : keyword_args) : result SwValueCont :=
  let* _ := check_keywords ["unit_ref"; "unit_display_name"; "sw_array_size"; "sw_values_phys"] kw in
  let* unit := opt_ref_strict rc_UnitRef (kwarg "unit_ref" kw) in
  let* name := optional (strict unit_names_of) (kwarg "unit_display_name" kw) in
  let* size := optional (strict array_size_of) (kwarg "sw_array_size" kw) in
  let* values := optional (strict sw_values_of) (kwarg "sw_values_phys" kw) in
  Ok (mkSwValueCont unit name size values).

(** ** Value specifications *)
(** The label of a value specification is stored as it is, element.py:2534-2535.  Simplification: only
    labels that are str or None are modelled. *)
(** TextValueSpecification.__init__, element.py:2647-2649.  str(value) as far as [str_of_arg] models it. *)
Definition new_text_value (label : option string) (value : arg) : result ValueSpecificationElement :=
  let* s := opt_text value in Ok (TextValueSpecification label s).
(** ArrayValueSpecification.__init__, element.py:2687-2698, and append, 2700-2706 *)
Definition new_array_value (label : option string) (elements : arg) : result ValueSpecificationElement :=
  let* l := lenient (strict specification_of) elements in Ok (ArrayValueSpecification label l).
(** RecordValueSpecification.__init__, element.py:2715-2726, and append, 2728-2734 *)
Definition new_record_value (label : option string) (fields : arg) : result ValueSpecificationElement :=
  let* l := lenient (strict specification_of) fields in Ok (RecordValueSpecification label l).
(** ArrayValueSpecification.append, element.py:2700-2706; RecordValueSpecification.append, 2728-2734; the
    other value specifications have no append *)
Definition append_value (e : ValueSpecificationElement) (a : arg) : result ValueSpecificationElement :=
  match e with
  | ArrayValueSpecification label l => let* x := strict specification_of a in Ok (ArrayValueSpecification label (l ++ [x]))
  | RecordValueSpecification label l => let* x := strict specification_of a in Ok (RecordValueSpecification label (l ++ [x]))
  | _ => Err AttributeError
  end.
(** ApplicationValueSpecification.__init__, element.py:2743-2767 *)
Definition new_application_value (label : option string) (kw : keyword_args) : result ValueSpecificationElement :=
  let* _ := check_keywords ["category"; "sw_axis_conts"; "sw_value_cont"] kw in
  let* category := opt_text_strict (kwarg "category" kw) in
  let* value := optional (strict value_cont_of) (kwarg "sw_value_cont" kw) in
  let* axes := one_or_list (strict axis_of) (kwarg "sw_axis_conts" kw) in
  Ok (ApplicationValueSpecification label category axes value).
(** ConstantReference.__init__, element.py:2817-2828 *)
Definition new_constant_reference (label : option string) (a : arg) : result ValueSpecificationElement :=
  let* r := match a with
            | ANone => Ok None
            | AStr s => let* r := ref_default rc_ConstantRef s in Ok (Some r)
            | _ => match as_ref rc_ConstantRef a with Some r => Ok (Some r) | None => Err TypeError end
            end in
  Ok (ConstantReference label r).

(** ** Constants *)
(** ConstantSpecification.__init__, element.py:2776-2784 *)
Definition new_constant (name : string) (kw : keyword_args) : result ConstantSpecification :=
  let* _ := check_keywords ("value" :: identifiable_keywords) kw in
  let* i := new_identifiable name kw in
  let* value := opt_value_specification (kwarg "value" kw) in
  Ok (mkConstantSpecification i value).
(** ConstantSpecification.make_constant, element.py:2795-2805; the value is made by
    ValueSpecification.make_value, 2563-2638.  Simplification: a bool in the data is stored as the int it
    equals, and a default pattern that is not an int is left out (see MPort.v). *)
Definition make_constant (name : string) (data : arg) (kw : keyword_args) : result ConstantSpecification :=
  let* _ := no_clash ["cls"; "name"; "value"] kw in
  let* m := make_value (data_of_arg data) in
  let* _ := check_keywords identifiable_keywords kw in
  let* i := new_identifiable name kw in
  Ok (mkConstantSpecification i (stored_value (VMade m))).
