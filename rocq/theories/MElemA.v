(** Elements modelled by hand: limits, computations, constraints, value lists and calibration
    values.
    Sources: /repo/src/autosar/xml/element.py:1091-1513, 2367-2501, /repo/src/autosar/xml/writer.py:
    953-1227, 1359-1386, 1837-1860, 2674-2777, /repo/src/autosar/xml/reader.py:1146-1452,
    1589-1610, 2161-2180, 3066-3189.  No proofs in this file. *)
From Verif Require Import Base MNames MNum MXml MEnum MRefTab MRef MCodec MElem0.

(** ** Limits *)

(** _write_limit, writer.py:1032-1045: a limit that is a text raises TypeError *)
Definition write_limit (tag : string) (limit : scalar) (ty : IntervalType) : out :=
  let* t := enum_text em_IntervalType ty in
  let* s := match limit with SNum n => format_number n | SText _ => Err TypeError end in
  Ok [Leaf tag [("INTERVAL-TYPE", t)] s].
(** _read_limit, reader.py:1254-1262: the interval type is CLOSED unless given *)
Definition read_limit (x : xml) : result (pynum * IntervalType) :=
  let* ty := match assoc "INTERVAL-TYPE" (x_attrs x) with
             | None => Ok IntervalType_CLOSED
             | Some s => xml_to_enum em_IntervalType s 51
             end in
  let* n := rd_number x in
  Ok (n, ty).
(** data["lower_limit"] and data["lower_limit_type"], with the constructors' defaults
    (for example element.py:1136-1145, reader.py:1217-1221) *)
Definition limit_of (o : option (pynum * IntervalType)) : option pynum := option_map fst o.
Definition limit_type_of (o : option (pynum * IntervalType)) : IntervalType :=
  match o with None => IntervalType_CLOSED | Some (_, t) => t end.

(** ** Computations *)

(** CompuConst, element.py:1114-1124; the value None can only come from reading an empty VT *)
Record CompuConst := mkCompuConst { CompuConst_value : option scalar }.
(** _write_compu_const, writer.py:1047-1063 *)
Definition write_compu_const (v : N) (tag : string) (e : CompuConst) : out :=
  node tag [] match CompuConst_value e with
              | Some (SText s) => content "VT" (Ok s)
              | Some (SNum n) => content "V" (format_number n)
              | None => Err TypeError
              end.
(** _read_compu_const, reader.py:1264-1281 *)
Definition read_compu_const (v : N) (x : xml) : result CompuConst :=
  match get "V" (x_kids x), get "VT" (x_kids x) with
  | Some _, Some _ => Err ParseError
  | Some y, None => let* n := rd_number y in Ok (mkCompuConst (Some (SNum n)))
  | None, Some y => Ok (mkCompuConst (option_map SText (text_opt y)))
  | None, None => Err ParseError
  end.

(** CompuRational, element.py:1091-1111 *)
Record CompuRational := mkCompuRational {
  CompuRational_numerator : option (list pynum);
  CompuRational_denominator : option (list pynum) }.
(** _write_numerator_denominator_values, writer.py:1085-1099: always called with a tuple *)
Definition write_numerator_denominator_values (l : list pynum) : out :=
  for_each l (fun n => content "V" (format_number n)).
(** _write_compu_rational, writer.py:1065-1083 *)
Definition write_compu_rational (v : N) (e : CompuRational) : out :=
  if unset (CompuRational_numerator e) && unset (CompuRational_denominator e) then empty "COMPU-RATIONAL-COEFFS" else
  node "COMPU-RATIONAL-COEFFS" [] (cat [
    if_set (CompuRational_numerator e) (fun a => node "COMPU-NUMERATOR" [] (write_numerator_denominator_values a));
    if_set (CompuRational_denominator e) (fun a => node "COMPU-DENOMINATOR" [] (write_numerator_denominator_values a)) ]).
(** ar_element.NumericalValue(xml_child.text) (element.py:103-138): None is a TypeError *)
Definition rd_numval (x : xml) : result numval :=
  match text_opt x with None => Err TypeError | Some s => nv_new (AText s) FMT_DEFAULT end.
(** _read_compu_numerator_denominator_values, reader.py:1299-1309 *)
Definition read_compu_numerator_denominator_values (x : xml) : result (list pynum) :=
  mapM (fun y => let* n := rd_numval y in Ok (nv_value n)) (findall "V" (x_kids x)).
(** _read_compu_rational, reader.py:1282-1297: the constructor requires the numerator *)
Definition read_compu_rational (v : N) (x : xml) : result CompuRational :=
  let k := x_kids x in
  let* d_numerator := child "COMPU-NUMERATOR" k read_compu_numerator_denominator_values in
  let* d_denominator := child "COMPU-DENOMINATOR" k read_compu_numerator_denominator_values in
  match d_numerator with
  | None => Err TypeError
  | Some _ => Ok (mkCompuRational d_numerator d_denominator)
  end.

(** CompuScale, element.py:1127-1173.  Simplification: the limit types are not None. *)
Inductive CompuScaleContent := ScaleConst (c : CompuConst) | ScaleRational (r : CompuRational).
Record CompuScale := mkCompuScale {
  CompuScale_content : option CompuScaleContent;
  CompuScale_lower_limit : option scalar;
  CompuScale_upper_limit : option scalar;
  CompuScale_label : option string;
  CompuScale_symbol : option string;
  CompuScale_desc : option (list lang_text);
  CompuScale_mask : option Z;
  CompuScale_inverse_value : option CompuConst;
  CompuScale_lower_limit_type : IntervalType;
  CompuScale_upper_limit_type : IntervalType }.
(** _write_compu_scale, writer.py:998-1030: is_empty is never true, the limit types are set *)
Definition write_compu_scale (v : N) (e : CompuScale) : out :=
  node "COMPU-SCALE" [] (cat [
    if_set (CompuScale_label e) (fun a => content "SHORT-LABEL" (Ok a));
    if_set (CompuScale_symbol e) (fun a => content "SYMBOL" (Ok a));
    if_set (CompuScale_desc e) (fun a => write_langs "DESC" "L-2" a);
    if_set (CompuScale_mask e) (fun a => content "MASK" (Ok (zstr a)));
    if_set (CompuScale_lower_limit e) (fun a => write_limit "LOWER-LIMIT" a (CompuScale_lower_limit_type e));
    if_set (CompuScale_upper_limit e) (fun a => write_limit "UPPER-LIMIT" a (CompuScale_upper_limit_type e));
    if_set (CompuScale_inverse_value e) (fun a => write_compu_const v "COMPU-INVERSE-VALUE" a);
    if_set (CompuScale_content e) (fun a => match a with
                                            | ScaleConst c => write_compu_const v "COMPU-CONST" c
                                            | ScaleRational r => write_compu_rational v r
                                            end) ]).
(** The content of a scale, reader.py:1238-1247 *)
Definition read_scale_content (v : N) (k : list xml) : result (option CompuScaleContent) :=
  match get "COMPU-CONST" k, get "COMPU-RATIONAL-COEFFS" k with
  | Some _, Some _ => Err ParseError
  | Some x, None => let* c := read_compu_const v x in Ok (Some (ScaleConst c))
  | None, Some x => let* r := read_compu_rational v x in Ok (Some (ScaleRational r))
  | None, None => Ok None
  end.
(** _read_compu_scale, reader.py:1208-1252 *)
Definition read_compu_scale (v : N) (x : xml) : result CompuScale :=
  let k := x_kids x in
  let* d_label := child_text "SHORT-LABEL" k in
  let* d_symbol := child_text "SYMBOL" k in
  let* d_desc := child "DESC" k (read_langs "L-2") in
  let* d_mask := child "MASK" k rd_int in
  let* d_lower := child "LOWER-LIMIT" k read_limit in
  let* d_upper := child "UPPER-LIMIT" k read_limit in
  let* d_inverse_value := child "COMPU-INVERSE-VALUE" k (read_compu_const v) in
  let* d_content := read_scale_content v k in
  Ok (mkCompuScale d_content (option_map SNum (limit_of d_lower)) (option_map SNum (limit_of d_upper))
        d_label d_symbol d_desc d_mask d_inverse_value (limit_type_of d_lower) (limit_type_of d_upper)).

(** Computation, element.py:1181-1192: the list of scales may be missing *)
Record Computation := mkComputation {
  Computation_compu_scales : option (list CompuScale);
  Computation_default_value : option CompuConst }.
(** _write_computation, writer.py:982-996 *)
Definition write_computation (v : N) (tag : string) (e : Computation) : out :=
  node tag [] (cat [
    if_set (Computation_compu_scales e) (fun l => node "COMPU-SCALES" [] (for_each l (fun a => write_compu_scale v a)));
    if_set (Computation_default_value e) (fun a => write_compu_const v "COMPU-DEFAULT-VALUE" a) ]).
(** _read_compu_scales, reader.py:1197-1206 *)
Definition read_compu_scales (v : N) (x : xml) : result (list CompuScale) :=
  mapM (read_compu_scale v) (findall "COMPU-SCALE" (x_kids x)).
(** _read_computation, reader.py:1180-1195 *)
Definition read_computation (v : N) (x : xml) : result Computation :=
  let k := x_kids x in
  let* d_compu_scales := child "COMPU-SCALES" k (read_compu_scales v) in
  let* d_default_value := child "COMPU-DEFAULT-VALUE" k (read_compu_const v) in
  Ok (mkComputation d_compu_scales d_default_value).

(** ** Constraints *)

(** ScaleConstraint, element.py:1327-1344 *)
Record ScaleConstraint := mkScaleConstraint {
  ScaleConstraint_lower_limit : option pynum;
  ScaleConstraint_upper_limit : option pynum;
  ScaleConstraint_lower_limit_type : IntervalType;
  ScaleConstraint_upper_limit_type : IntervalType;
  ScaleConstraint_label : option string;
  ScaleConstraint_desc : option (list lang_text);
  ScaleConstraint_validity : option ScaleConstraintValidity }.
(** LimitObject.is_empty, element.py:1306-1309: the limit types are ignored *)
Definition ScaleConstraint_is_empty (e : ScaleConstraint) : bool :=
  unset (ScaleConstraint_lower_limit e) && unset (ScaleConstraint_upper_limit e) && unset (ScaleConstraint_label e) &&
  unset (ScaleConstraint_desc e) && unset (ScaleConstraint_validity e).
(** _write_scale_constraint, writer.py:1203-1227 *)
Definition write_scale_constraint (v : N) (e : ScaleConstraint) : out :=
  let* attr := match ScaleConstraint_validity e with
               | None => Ok []
               | Some a => let* t := enum_text em_ScaleConstraintValidity a in Ok [("VALIDITY", t)]
               end in
  if ScaleConstraint_is_empty e then Ok [Leaf "SCALE-CONSTR" attr ""] else
  node "SCALE-CONSTR" attr (cat [
    if_set (ScaleConstraint_label e) (fun a => content "SHORT-LABEL" (Ok a));
    if_set (ScaleConstraint_desc e) (fun a => write_langs "DESC" "L-2" a);
    if_set (ScaleConstraint_lower_limit e) (fun a => write_limit "LOWER-LIMIT" (SNum a) (ScaleConstraint_lower_limit_type e));
    if_set (ScaleConstraint_upper_limit e) (fun a => write_limit "UPPER-LIMIT" (SNum a) (ScaleConstraint_upper_limit_type e)) ]).
(** _read_scale_constraint, reader.py:1427-1451: VALIDITY is not read *)
Definition read_scale_constraint (v : N) (x : xml) : result ScaleConstraint :=
  let k := x_kids x in
  let* d_label := child_text "SHORT-LABEL" k in
  let* d_desc := child "DESC" k (read_langs "L-2") in
  let* d_lower := child "LOWER-LIMIT" k read_limit in
  let* d_upper := child "UPPER-LIMIT" k read_limit in
  Ok (mkScaleConstraint (limit_of d_lower) (limit_of d_upper) (limit_type_of d_lower) (limit_type_of d_upper) d_label d_desc None).

(** ConstraintBase, element.py:1347-1365 *)
Record ConstraintBase := mkConstraintBase {
  ConstraintBase_lower_limit : option pynum;
  ConstraintBase_upper_limit : option pynum;
  ConstraintBase_lower_limit_type : IntervalType;
  ConstraintBase_upper_limit_type : IntervalType;
  ConstraintBase_scale_constrs : list ScaleConstraint;
  ConstraintBase_max_gradient : option pynum;
  ConstraintBase_max_diff : option pynum;
  ConstraintBase_monotony : option Monotony }.
(** LimitObject.is_empty, element.py:1306-1309 *)
Definition ConstraintBase_is_empty (e : ConstraintBase) : bool :=
  unset (ConstraintBase_lower_limit e) && unset (ConstraintBase_upper_limit e) && no_items (ConstraintBase_scale_constrs e) &&
  unset (ConstraintBase_max_gradient e) && unset (ConstraintBase_max_diff e) && unset (ConstraintBase_monotony e).
(** _write_constraint_base, writer.py:1182-1202 *)
Definition write_constraint_base (v : N) (e : ConstraintBase) : out :=
  cat [
    if_set (ConstraintBase_lower_limit e) (fun a => write_limit "LOWER-LIMIT" (SNum a) (ConstraintBase_lower_limit_type e));
    if_set (ConstraintBase_upper_limit e) (fun a => write_limit "UPPER-LIMIT" (SNum a) (ConstraintBase_upper_limit_type e));
    if_some (ConstraintBase_scale_constrs e) (node "SCALE-CONSTRS" [] (for_each (ConstraintBase_scale_constrs e) (fun a => write_scale_constraint v a)));
    if_set (ConstraintBase_max_gradient e) (fun a => content "MAX-GRADIENT" (format_number a));
    if_set (ConstraintBase_max_diff e) (fun a => content "MAX-DIFF" (format_number a));
    if_set (ConstraintBase_monotony e) (fun a => content "MONOTONY" (enum_text em_Monotony a)) ].
(** _read_constraint_base, reader.py:1385-1412, with the constructor *)
Definition read_constraint_base (v : N) (k : list xml) : result ConstraintBase :=
  let* d_lower := child "LOWER-LIMIT" k read_limit in
  let* d_upper := child "UPPER-LIMIT" k read_limit in
  let* d_scale_constr := children "SCALE-CONSTRS" "SCALE-CONSTR" k (read_scale_constraint v) in
  let* d_max_gradient := child "MAX-GRADIENT" k rd_number in
  let* d_max_diff := child "MAX-DIFF" k rd_number in
  let* d_monotony := child "MONOTONY" k (rd_enum em_Monotony) in
  Ok (mkConstraintBase (limit_of d_lower) (limit_of d_upper) (limit_type_of d_lower) (limit_type_of d_upper)
        d_scale_constr d_max_gradient d_max_diff d_monotony).

(** InternalConstraint, element.py:1368-1390; _write_internal_constraint, writer.py:1150-1163;
    _read_internal_constraint, reader.py:1361-1370 *)
Record InternalConstraint := mkInternalConstraint { InternalConstraint_base : ConstraintBase }.
Definition write_internal_constraint (v : N) (e : InternalConstraint) : out :=
  if ConstraintBase_is_empty (InternalConstraint_base e) then empty "INTERNAL-CONSTRS" else
  node "INTERNAL-CONSTRS" [] (write_constraint_base v (InternalConstraint_base e)).
Definition read_internal_constraint (v : N) (x : xml) : result InternalConstraint :=
  let* b := read_constraint_base v (x_kids x) in Ok (mkInternalConstraint b).

(** PhysicalConstraint, element.py:1393-1417; _write_physical_constraint, writer.py:1165-1180;
    _read_physical_constraint, reader.py:1372-1384 *)
Record PhysicalConstraint := mkPhysicalConstraint {
  PhysicalConstraint_base : ConstraintBase;
  PhysicalConstraint_unit_ref : option ref }.
Definition write_physical_constraint (v : N) (e : PhysicalConstraint) : out :=
  if ConstraintBase_is_empty (PhysicalConstraint_base e) && unset (PhysicalConstraint_unit_ref e) then empty "PHYS-CONSTRS" else
  node "PHYS-CONSTRS" [] (cat [
    write_constraint_base v (PhysicalConstraint_base e);
    if_set (PhysicalConstraint_unit_ref e) (fun a => write_ref "UNIT-REF" a) ]).
Definition read_physical_constraint (v : N) (x : xml) : result PhysicalConstraint :=
  let k := x_kids x in
  let* b := read_constraint_base v k in
  let* d_unit_ref := child "UNIT-REF" k (read_ref rc_UnitRef v) in
  Ok (mkPhysicalConstraint b d_unit_ref).

(** DataConstraintRule, element.py:1420-1432 *)
Record DataConstraintRule := mkDataConstraintRule {
  DataConstraintRule_internal : option InternalConstraint;
  DataConstraintRule_physical : option PhysicalConstraint;
  DataConstraintRule_level : option Z }.
(** _write_data_constraint_rule, writer.py:1130-1148 *)
Definition write_data_constraint_rule (v : N) (e : DataConstraintRule) : out :=
  if unset (DataConstraintRule_internal e) && unset (DataConstraintRule_physical e) && unset (DataConstraintRule_level e) then empty "DATA-CONSTR-RULE" else
  node "DATA-CONSTR-RULE" [] (cat [
    if_set (DataConstraintRule_level e) (fun a => content "CONSTR-LEVEL" (Ok (zstr a)));
    if_set (DataConstraintRule_physical e) (fun a => write_physical_constraint v a);
    if_set (DataConstraintRule_internal e) (fun a => write_internal_constraint v a) ]).
(** _read_data_constraint_rule, reader.py:1341-1359 *)
Definition read_data_constraint_rule (v : N) (x : xml) : result DataConstraintRule :=
  let k := x_kids x in
  let* d_level := child "CONSTR-LEVEL" k rd_int in
  let* d_physical := child "PHYS-CONSTRS" k (read_physical_constraint v) in
  let* d_internal := child "INTERNAL-CONSTRS" k (read_internal_constraint v) in
  Ok (mkDataConstraintRule d_internal d_physical d_level).

(** DataConstraint, element.py:1448-1513 *)
Record DataConstraint := mkDataConstraint {
  DataConstraint_ident : identifiable;
  DataConstraint_rules : list DataConstraintRule }.
(** _write_data_constraint and _write_data_constraint_group, writer.py:1103-1128 *)
Definition write_data_constraint (v : N) (e : DataConstraint) : out :=
  node "DATA-CONSTR" (identifiable_attributes (DataConstraint_ident e)) (cat [
    write_referrable (DataConstraint_ident e);
    write_multilanguage_referrable (DataConstraint_ident e);
    write_identifiable (DataConstraint_ident e);
    if_some (DataConstraint_rules e) (node "DATA-CONSTR-RULES" [] (for_each (DataConstraint_rules e) (fun a => write_data_constraint_rule v a))) ]).
(** _read_data_constraint and _read_data_constraint_group, reader.py:1314-1339 *)
Definition read_data_constraint (v : N) (x : xml) : result DataConstraint :=
  let k := x_kids x in
  let* d_ident := read_ident (x_attrs x) k in
  let* d_rules := children "DATA-CONSTR-RULES" "DATA-CONSTR-RULE" k (read_data_constraint_rule v) in
  let* ident := new_identifiable d_ident in
  Ok (mkDataConstraint ident d_rules).

(** CompuMethod, element.py:1259-1283 *)
Record CompuMethod := mkCompuMethod {
  CompuMethod_ident : identifiable;
  CompuMethod_int_to_phys : option Computation;
  CompuMethod_phys_to_int : option Computation;
  CompuMethod_unit_ref : option ref;
  CompuMethod_display_format : option string }.
(** _write_compu_method and _write_compu_method_group, writer.py:953-980 *)
Definition write_compu_method (v : N) (e : CompuMethod) : out :=
  node "COMPU-METHOD" (identifiable_attributes (CompuMethod_ident e)) (cat [
    write_referrable (CompuMethod_ident e);
    write_multilanguage_referrable (CompuMethod_ident e);
    write_identifiable (CompuMethod_ident e);
    if_set (CompuMethod_display_format e) (fun a => content "DISPLAY-FORMAT" (Ok a));
    if_set (CompuMethod_unit_ref e) (fun a => write_ref "UNIT-REF" a);
    if_set (CompuMethod_int_to_phys e) (fun a => write_computation v "COMPU-INTERNAL-TO-PHYS" a);
    if_set (CompuMethod_phys_to_int e) (fun a => write_computation v "COMPU-PHYS-TO-INTERNAL" a) ]).
(** _read_compu_method and _read_compu_method_group, reader.py:1146-1178 *)
Definition read_compu_method (v : N) (x : xml) : result CompuMethod :=
  let k := x_kids x in
  let* d_ident := read_ident (x_attrs x) k in
  let* d_display_format := child_text "DISPLAY-FORMAT" k in
  let* d_unit_ref := child "UNIT-REF" k (read_ref rc_UnitRef v) in
  let* d_int_to_phys := child "COMPU-INTERNAL-TO-PHYS" k (read_computation v) in
  let* d_phys_to_int := child "COMPU-PHYS-TO-INTERNAL" k (read_computation v) in
  let* ident := new_identifiable d_ident in
  Ok (mkCompuMethod ident d_int_to_phys d_phys_to_int d_unit_ref d_display_format).

(** ** Value lists and calibration values *)

(** int | float | NumericalValue *)
Inductive number := Bare (n : pynum) | Wrapped (n : numval).
(** _format_number, writer.py:144-152 *)
Definition format_any (n : number) : result string :=
  match n with Bare n => format_number n | Wrapped n => format_numval n end.
(** number = NumericalValue(text), kept if its format is not the default (for example
    reader.py:2170-2176) *)
Definition rd_value (x : xml) : result number :=
  let* n := rd_numval x in
  Ok match nv_format n with
     | FMT_HEXADECIMAL | FMT_BINARY | FMT_SCIENTIFIC => Wrapped n
     | FMT_DEFAULT | FMT_DECIMAL => Bare (nv_value n)
     end.

(** ValueList, element.py:2367-2389; _write_value_list, writer.py:1837-1850; _read_value_list,
    reader.py:2161-2179 *)
Record ValueList := mkValueList { ValueList_values : list number }.
Definition write_value_list (v : N) (e : ValueList) : out :=
  if no_items (ValueList_values e) then empty "SW-ARRAYSIZE" else
  node "SW-ARRAYSIZE" [] (for_each (ValueList_values e) (fun a => content "V" (format_any a))).
Definition read_value_list (v : N) (x : xml) : result ValueList :=
  let* l := mapM rd_value (findall "V" (x_kids x)) in Ok (mkValueList l).

(** Values of SwValues and ValueGroup, element.py:2422-2469; the text None can only come from
    reading an empty VT *)
Inductive sw_value :=
| SwText (s : option string)
| SwNumber (n : number)
| SwGroup (label : option (list lang_text)) (values : list sw_value).
(** _write_sw_values_group, writer.py:2689-2703, and _write_value_group, writer.py:2704-2717 *)
Fixpoint write_sw_value (e : sw_value) : out :=
  match e with
  | SwText (Some s) => content "VT" (Ok s)
  | SwText None => Err NotImplementedError
  | SwNumber n => content "V" (format_any n)
  | SwGroup l vs =>
      if unset l && no_items vs then empty "VG"
      else node "VG" [] (cat [if_set l (fun a => write_langs "LABEL" "L-4" a); for_each vs write_sw_value])
  end.
(** SwValues.append, element.py:2438-2449: None raises TypeError *)
Fixpoint new_sw_values (l : list sw_value) : result (list sw_value) :=
  match l with
  | [] => Ok []
  | SwText None :: _ => Err TypeError
  | a :: r => let* l := new_sw_values r in Ok (a :: l)
  end.
(** A loop that keeps what [f] finds in each child. *)
Section Collect.
  Context {A : Type} (f : xml -> result (option A)).
  Fixpoint collect (kids : list xml) : result (list A) :=
    match kids with
    | [] => Ok []
    | x :: r => let* o := f x in let* l := collect r in Ok (match o with Some a => a :: l | None => l end)
    end.
End Collect.
(** One turn of the loop in _read_sw_values_group, reader.py:3079-3109, with _read_value_group,
    reader.py:3111-3121: other tags are passed over *)
Fixpoint read_sw_value (x : xml) : result (option sw_value) :=
  match x with
  | Elem tag a t kids tl =>
      if String.eqb tag "VT" then Ok (Some (SwText (text_opt (Elem tag a t kids tl))))
      else if String.eqb tag "V" then let* n := rd_value (Elem tag a t kids tl) in Ok (Some (SwNumber n))
      else if String.eqb tag "VG" then
        match kids with
        | Elem lt la ltx lk ltl :: r =>
            if String.eqb lt "LABEL" then
              let* label := read_langs "L-4" (Elem lt la ltx lk ltl) in
              let* l := collect read_sw_value r in
              let* l := new_sw_values l in Ok (Some (SwGroup (Some label) l))
            else let* l := collect read_sw_value kids in let* l := new_sw_values l in Ok (Some (SwGroup None l))
        | [] => Ok (Some (SwGroup None []))
        end
      else Ok None
  end.
(** SwValues; _write_sw_values, writer.py:2674-2687; _read_sw_values, reader.py:3066-3076 *)
Record SwValues := mkSwValues { SwValues_values : list sw_value }.
Definition write_sw_values (v : N) (e : SwValues) : out :=
  if no_items (SwValues_values e) then empty "SW-VALUES-PHYS" else
  node "SW-VALUES-PHYS" [] (for_each (SwValues_values e) write_sw_value).
Definition read_sw_values (v : N) (x : xml) : result SwValues :=
  let* l := collect read_sw_value (x_kids x) in
  let* l := new_sw_values l in
  Ok (mkSwValues l).

(** int | str *)
Inductive index := IInt (z : Z) | IText (s : string).
(** str(index) *)
Definition index_text (i : index) : string := match i with IInt z => zstr z | IText s => s end.
(** int(text), or the text itself (reader.py:3149-3155) *)
Definition rd_index (x : xml) : result index :=
  match text_opt x with
  | None => Err TypeError
  | Some s => Ok (match int10 s with Some z => IInt z | None => IText s end)
  end.
(** SwAxisCont, element.py:2472-2501 *)
Record SwAxisCont := mkSwAxisCont {
  SwAxisCont_category : option CalibrationAxisCategory;
  SwAxisCont_unit_ref : option ref;
  SwAxisCont_unit_display_name : option SingleLanguageUnitNames;
  SwAxisCont_sw_axis_index : option index;
  SwAxisCont_sw_array_size : option ValueList;
  SwAxisCont_sw_values_phys : option SwValues }.
(** SwAxisCont.is_empty, xml/base.py:17-29 *)
Definition SwAxisCont_is_empty (e : SwAxisCont) : bool :=
  unset (SwAxisCont_category e) && unset (SwAxisCont_unit_ref e) && unset (SwAxisCont_unit_display_name e) &&
  unset (SwAxisCont_sw_axis_index e) && unset (SwAxisCont_sw_array_size e) && unset (SwAxisCont_sw_values_phys e).
(** _write_sw_axis_cont and _write_sw_axis_cont_group, writer.py:2719-2749 *)
Definition write_sw_axis_cont (v : N) (e : SwAxisCont) : out :=
  if SwAxisCont_is_empty e then empty "SW-AXIS-CONT" else
  node "SW-AXIS-CONT" [] (cat [
    if_set (SwAxisCont_category e) (fun a => content "CATEGORY" (enum_text em_CalibrationAxisCategory a));
    if_set (SwAxisCont_unit_ref e) (fun a => write_ref "UNIT-REF" a);
    if_set (SwAxisCont_unit_display_name e) (fun a => write_unit_names "UNIT-DISPLAY-NAME" a);
    if_set (SwAxisCont_sw_axis_index e) (fun a => content "SW-AXIS-INDEX" (Ok (index_text a)));
    if_set (SwAxisCont_sw_array_size e) (fun a => write_value_list v a);
    if_set (SwAxisCont_sw_values_phys e) (fun a => write_sw_values v a) ]).
(** _read_sw_axis_cont and _read_sw_axis_cont_group, reader.py:3123-3160 *)
Definition read_sw_axis_cont (v : N) (x : xml) : result SwAxisCont :=
  let k := x_kids x in
  let* d_category := child "CATEGORY" k (rd_enum em_CalibrationAxisCategory) in
  let* d_unit_ref := child "UNIT-REF" k (read_ref rc_UnitRef v) in
  let* d_unit_display_name := child "UNIT-DISPLAY-NAME" k read_unit_names in
  let* d_sw_axis_index := child "SW-AXIS-INDEX" k rd_index in
  let* d_sw_array_size := child "SW-ARRAYSIZE" k (read_value_list v) in
  let* d_sw_values_phys := child "SW-VALUES-PHYS" k (read_sw_values v) in
  Ok (mkSwAxisCont d_category d_unit_ref d_unit_display_name d_sw_axis_index d_sw_array_size d_sw_values_phys).

(** SwAddrMethod, element.py:2395-2415.  Its other attributes cannot be given to the constructor
    and are neither written nor read (writer.py:1374-1386, reader.py:1604-1612). *)
Record SwAddrMethod := mkSwAddrMethod { SwAddrMethod_ident : identifiable }.
(** _write_sw_addr_method, writer.py:1359-1372 *)
Definition write_sw_addr_method (v : N) (e : SwAddrMethod) : out :=
  node "SW-ADDR-METHOD" (identifiable_attributes (SwAddrMethod_ident e)) (cat [
    write_referrable (SwAddrMethod_ident e);
    write_multilanguage_referrable (SwAddrMethod_ident e);
    write_identifiable (SwAddrMethod_ident e) ]).
(** _read_sw_addr_method, reader.py:1589-1602 *)
Definition read_sw_addr_method (v : N) (x : xml) : result SwAddrMethod :=
  let* d_ident := read_ident (x_attrs x) (x_kids x) in
  let* ident := new_identifiable d_ident in
  Ok (mkSwAddrMethod ident).
