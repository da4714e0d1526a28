(** Creating computation methods, data constraints and base types.  Source: /repo/src/autosar/xml/element.py.
    Simplification: the constructors store most arguments as they are; arguments here have the documented types.
    Further keyword arguments go to Identifiable.__init__.  No proofs in this file. *)
From Verif Require Import Base MNum MXml MEnum MRefTab MRef MCodec MElem0 MElem1 MElemA MElemB MElemC MElem2 MElemD MElem3 MElem4 MElemE MElem5 MElemF MArxml MFind MValue MEvent MPort MAccess.

(** ** Computations *)
(** CompuRational.__init__, element.py:1097-1111: tuple(list) has the same items *)
Definition new_compu_rational (numerator denominator : option (list pynum)) : CompuRational := mkCompuRational numerator denominator.
(** CompuConst.__init__, element.py:1123-1124 *)
Definition new_compu_const (value : scalar) : CompuConst := mkCompuConst (Some value).
(** default_value: CompuConst | int | float | str, element.py:1187-1191; inverse_value of a CompuScale, 1151-1158 *)
Inductive const_arg := ConstObject (c : CompuConst) | ConstValue (s : scalar).
Definition const_of (a : const_arg) : CompuConst := match a with ConstObject c => c | ConstValue s => new_compu_const s end.
(** CompuScale.__init__, element.py:1133-1160 *)
Definition new_compu_scale (content : option CompuScaleContent) (lower upper : option scalar) (label symbol : option string) (desc : option (list lang_text))
    (mask : option Z) (inverse : option const_arg) (lower_type upper_type : IntervalType) : CompuScale :=
  mkCompuScale content lower upper label symbol desc mask (option_map const_of inverse) lower_type upper_type.
(** Computation.__init__, element.py:1182-1191 *)
Definition new_computation (scales : option (list CompuScale)) (default : option const_arg) : Computation :=
  mkComputation scales (option_map const_of default).
(** The loop of Computation.make_value_table, element.py:1214-1230 *)
Fixpoint value_scales (auto_label : bool) (i : Z) (l : list table_item) : result (list CompuScale) :=
  match l with
  | [] => Ok []
  | t :: r =>
      let* x := match t with
                | TText s => Ok (SNum (NInt i), SNum (NInt i), SText s)
                | TTuple [a; v] => Ok (a, a, v)
                | TTuple [a; b; v] => Ok (a, b, v)
                | TTuple _ => Err ValueError
                | TOther => Err TypeError
                end in
      let '(lo, up, v) := x in
      let label := match v with SText s => if auto_label then Some s else None | SNum _ => None end in
      let* rest := value_scales auto_label (i + 1) r in
      Ok (new_compu_scale (Some (ScaleConst (new_compu_const v))) (Some lo) (Some up) label None None None None IntervalType_CLOSED IntervalType_CLOSED :: rest)
  end.
(** Computation.make_value_table, element.py:1194-1231 *)
Definition value_table (elements : list table_item) (default : option const_arg) (auto_label : bool) : result Computation :=
  let* s := value_scales auto_label 0 elements in
  Ok (new_computation (Some s) default).
(** Computation.make_rational, element.py:1233-1256; float(scaling_factor) is exact here *)
Definition rational_computation (factor offset : pynum) (lower upper : option scalar) (default : option const_arg) (lower_type upper_type : IntervalType) : Computation :=
  let numerator := [offset; NFloat (to_float factor)] in
  let denominator := [NInt 1] in
  new_computation (Some [new_compu_scale (Some (ScaleRational (new_compu_rational (Some numerator) (Some denominator)))) lower upper None None None None None lower_type upper_type]) default.
(** CompuMethod.__init__, element.py:1265-1275 *)
Definition new_compu_method (name : string) (int_to_phys phys_to_int : option Computation) (unit_ref : option ref) (display_format : option string) (kw : keyword_args) : result CompuMethod :=
  let* _ := check_keywords identifiable_keywords kw in
  let* i := MAccess.new_identifiable name kw in
  Ok (mkCompuMethod i int_to_phys phys_to_int unit_ref display_format).

(** ** Data constraints *)
(** ScaleConstraint.__init__, element.py:1333-1344, and LimitObject.__init__, 1294-1303 *)
Definition new_scale_constraint (label : option string) (desc : option (list lang_text)) (lower upper : option pynum) (validity : option ScaleConstraintValidity)
    (lower_type upper_type : IntervalType) : ScaleConstraint :=
  mkScaleConstraint lower upper lower_type upper_type label desc validity.
(** ConstraintBase.__init__, element.py:1352-1365 *)
Definition new_constraint_base (lower upper : option pynum) (scales : option (list ScaleConstraint)) (max_gradient max_diff : option pynum) (monotony : option Monotony)
    (lower_type upper_type : IntervalType) : ConstraintBase :=
  mkConstraintBase lower upper lower_type upper_type (match scales with Some l => l | None => [] end) max_gradient max_diff monotony.
(** InternalConstraint.__init__, element.py:1374-1390 *)
Definition new_internal_constraint (lower upper : option pynum) (scales : option (list ScaleConstraint)) (max_gradient max_diff : option pynum) (monotony : option Monotony)
    (lower_type upper_type : IntervalType) : InternalConstraint :=
  mkInternalConstraint (new_constraint_base lower upper scales max_gradient max_diff monotony lower_type upper_type).
(** PhysicalConstraint.__init__, element.py:1399-1417 *)
Definition new_physical_constraint (lower upper : option pynum) (scales : option (list ScaleConstraint)) (max_gradient max_diff : option pynum) (monotony : option Monotony)
    (unit_ref : option ref) (lower_type upper_type : IntervalType) : PhysicalConstraint :=
  mkPhysicalConstraint (new_constraint_base lower upper scales max_gradient max_diff monotony lower_type upper_type) unit_ref.
(** DataConstraintRule.__init__, element.py:1426-1432 *)
Definition new_rule (internal : option InternalConstraint) (physical : option PhysicalConstraint) (level : option Z) : DataConstraintRule :=
  mkDataConstraintRule internal physical level.
(** DataConstraint.__init__, element.py:1441-1449 *)
Definition new_data_constraint (name : string) (rules : option (list DataConstraintRule)) (kw : keyword_args) : result DataConstraint :=
  let* _ := check_keywords identifiable_keywords kw in
  let* i := MAccess.new_identifiable name kw in
  Ok (mkDataConstraint i (match rules with Some l => l | None => [] end)).
(** DataConstraint.make_physical, element.py:1459-1487; a keyword rules is a TypeError as in new_data_constraint *)
Definition make_physical (name : string) (lower upper : option pynum) (scales : option (list ScaleConstraint)) (max_gradient max_diff : option pynum) (monotony : option Monotony)
    (unit_ref : option ref) (lower_type upper_type : IntervalType) (kw : keyword_args) : result DataConstraint :=
  let rule := new_rule None (Some (new_physical_constraint lower upper scales max_gradient max_diff monotony unit_ref lower_type upper_type)) None in
  new_data_constraint name (Some [rule]) kw.
(** DataConstraint.make_internal, element.py:1489-1515 *)
Definition make_internal (name : string) (lower upper : option pynum) (scales : option (list ScaleConstraint)) (max_gradient max_diff : option pynum) (monotony : option Monotony)
    (lower_type upper_type : IntervalType) (kw : keyword_args) : result DataConstraint :=
  let rule := new_rule (Some (new_internal_constraint lower upper scales max_gradient max_diff monotony lower_type upper_type)) None None in
  new_data_constraint name (Some [rule]) kw.
(** IntervalType, enumeration.py:299-307, as check_value (MNum.v) has it *)
Definition interval (t : IntervalType) : interval_type := match t with IntervalType_CLOSED => CLOSED | IntervalType_OPEN => OPEN end.
(** LimitObject.check_value, element.py:1310-1324, of a constraint and of a scale of it *)
Definition constraint_check (c : ConstraintBase) (value : pynum) : result bool :=
  check_value (mkLim (ConstraintBase_lower_limit c) (ConstraintBase_upper_limit c) (interval (ConstraintBase_lower_limit_type c)) (interval (ConstraintBase_upper_limit_type c))) value.
Definition scale_check (c : ScaleConstraint) (value : pynum) : result bool :=
  check_value (mkLim (ScaleConstraint_lower_limit c) (ScaleConstraint_upper_limit c) (interval (ScaleConstraint_lower_limit_type c)) (interval (ScaleConstraint_upper_limit_type c))) value.

(** ** Base types *)
(** SwBaseType.__init__, element.py:1586-1601, and BaseType.__init__, 1570-1577 *)
Definition new_base_type (name : string) (size max_size : option Z) (encoding : option string) (alignment : option Z) (byte_order : option ByteOrder) (native : option string)
    (kw : keyword_args) : result SwBaseType :=
  let* _ := check_keywords identifiable_keywords kw in
  let* i := MAccess.new_identifiable name kw in
  Ok (mkSwBaseType i size max_size encoding alignment byte_order native).
