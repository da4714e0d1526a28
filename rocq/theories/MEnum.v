(** Enumerations and their XML texts.  Generated from /repo/src/autosar/xml/enumeration.py by
    tools/gen_enum.py; one inductive type per Enum class, the tables entry by entry.
    PackageRole is in MWork.v.  No proofs in this file. *)
From Verif Require Import Base.

(** Table entries: a value, or a VersionedEnumValue / VersionedTextValue with the schema versions
    it is valid in (enumeration.py:697-716). *)
Inductive entry (A : Type) := Plain (a : A) | Versioned (a : A) (versions : list N).
Arguments Plain {A}. Arguments Versioned {A}.

(** An Enum class: integer values of the members, entry of xml_to_enum_map and of
    enum_to_xml_map (None: no such key). *)
Record enum_map (A : Type) := mkEnum {
  em_name : string;
  em_value : A -> nat;
  em_from : option (list (string * entry A));
  em_to : option (list (entry string)) }.
Arguments mkEnum {A}. Arguments em_name {A}. Arguments em_value {A}. Arguments em_from {A}. Arguments em_to {A}.

(** The value of an entry under a schema version. *)
Definition entry_value {A} (e : entry A) (version : N) : result A :=
  match e with
  | Plain a => Ok a
  | Versioned a vs => if existsb (N.eqb version) vs then Ok a else Err VersionError
  end.

(** xml_to_enum, enumeration.py:1121-1137 *)
Definition xml_to_enum {A} (m : enum_map A) (text : string) (version : N) : result A :=
  match em_from m with
  | None => Err KeyError
  | Some tbl => match assoc text tbl with
                | None => Err KeyError
                | Some e => entry_value e version
                end
  end.

(** enum_to_xml, enumeration.py:1529-1542 *)
Definition enum_to_xml {A} (m : enum_map A) (a : A) (version : N) : result string :=
  match em_to m with
  | None => Err KeyError
  | Some tbl => match nth_error tbl (em_value m a) with
                | None => Err IndexError
                | Some e => entry_value e version
                end
  end.

(** ArgumentDirection, enumeration.py:13-20 *)
Inductive ArgumentDirection :=
| ArgumentDirection_IN
| ArgumentDirection_INOUT
| ArgumentDirection_OUT.
(** Values, and the tables at enumeration.py:727-731 and 1141-1145 *)
Definition ArgumentDirection_value (x : ArgumentDirection) : nat :=
  match x with
  | ArgumentDirection_IN => 0
  | ArgumentDirection_INOUT => 1
  | ArgumentDirection_OUT => 2
  end.
Definition em_ArgumentDirection : enum_map ArgumentDirection := mkEnum "ArgumentDirection" ArgumentDirection_value
  (Some [
    ("IN", Plain ArgumentDirection_IN);
    ("INOUT", Plain ArgumentDirection_INOUT);
    ("OUT", Plain ArgumentDirection_OUT)])
  (Some [
    Plain "IN";
    Plain "INOUT";
    Plain "OUT"]).

(** ArrayImplPolicy, enumeration.py:23-29 *)
Inductive ArrayImplPolicy :=
| ArrayImplPolicy_PAYLOAD_AS_ARRAY
| ArrayImplPolicy_PAYLOAD_AS_POINTER_TO_ARRAY.
(** Values, and the tables at enumeration.py:732-735 and 1146-1149 *)
Definition ArrayImplPolicy_value (x : ArrayImplPolicy) : nat :=
  match x with
  | ArrayImplPolicy_PAYLOAD_AS_ARRAY => 0
  | ArrayImplPolicy_PAYLOAD_AS_POINTER_TO_ARRAY => 1
  end.
Definition em_ArrayImplPolicy : enum_map ArrayImplPolicy := mkEnum "ArrayImplPolicy" ArrayImplPolicy_value
  (Some [
    ("PAYLOAD-AS-ARRAY", Versioned ArrayImplPolicy_PAYLOAD_AS_ARRAY [49; 50; 51]%N);
    ("PAYLOAD-AS-POINTER-TO-ARRAY", Versioned ArrayImplPolicy_PAYLOAD_AS_POINTER_TO_ARRAY [49; 50; 51]%N)])
  (Some [
    Versioned "PAYLOAD-AS-ARRAY" [49; 50; 51]%N;
    Versioned "PAYLOAD-AS-POINTER-TO-ARRAY" [49; 50; 51]%N]).

(** ArraySizeHandling, enumeration.py:32-39 *)
Inductive ArraySizeHandling :=
| ArraySizeHandling_ALL_INDICES_DIFFERENT_ARRAY_SIZE
| ArraySizeHandling_ALL_INDICES_SAME_ARRAY_SIZE
| ArraySizeHandling_INHERITED_FROM_ARRAY_ELEMENT_TYPE_SIZE.
(** Values, and the tables at enumeration.py:736-740 and 1150-1154 *)
Definition ArraySizeHandling_value (x : ArraySizeHandling) : nat :=
  match x with
  | ArraySizeHandling_ALL_INDICES_DIFFERENT_ARRAY_SIZE => 0
  | ArraySizeHandling_ALL_INDICES_SAME_ARRAY_SIZE => 1
  | ArraySizeHandling_INHERITED_FROM_ARRAY_ELEMENT_TYPE_SIZE => 2
  end.
Definition em_ArraySizeHandling : enum_map ArraySizeHandling := mkEnum "ArraySizeHandling" ArraySizeHandling_value
  (Some [
    ("ALL-INDICES-DIFFERENT-ARRAY-SIZE", Plain ArraySizeHandling_ALL_INDICES_DIFFERENT_ARRAY_SIZE);
    ("ALL-INDICES-SAME-ARRAY-SIZE", Plain ArraySizeHandling_ALL_INDICES_SAME_ARRAY_SIZE);
    ("INHERITED-FROM-ARRAY-ELEMENT-TYPE-SIZE", Plain ArraySizeHandling_INHERITED_FROM_ARRAY_ELEMENT_TYPE_SIZE)])
  (Some [
    Plain "ALL-INDICES-DIFFERENT-ARRAY-SIZE";
    Plain "ALL-INDICES-SAME-ARRAY-SIZE";
    Plain "INHERITED-FROM-ARRAY-ELEMENT-TYPE-SIZE"]).

(** ArraySizeSemantics, enumeration.py:42-48 *)
Inductive ArraySizeSemantics :=
| ArraySizeSemantics_FIXED_SIZE
| ArraySizeSemantics_VARIABLE_SIZE.
(** Values, and the tables at enumeration.py:741-744 and 1155-1158 *)
Definition ArraySizeSemantics_value (x : ArraySizeSemantics) : nat :=
  match x with
  | ArraySizeSemantics_FIXED_SIZE => 0
  | ArraySizeSemantics_VARIABLE_SIZE => 1
  end.
Definition em_ArraySizeSemantics : enum_map ArraySizeSemantics := mkEnum "ArraySizeSemantics" ArraySizeSemantics_value
  (Some [
    ("FIXED-SIZE", Plain ArraySizeSemantics_FIXED_SIZE);
    ("VARIABLE-SIZE", Plain ArraySizeSemantics_VARIABLE_SIZE)])
  (Some [
    Plain "FIXED-SIZE";
    Plain "VARIABLE-SIZE"]).

(** ByteOrder, enumeration.py:51-62 *)
Inductive ByteOrder :=
| ByteOrder_BIG_ENDIAN
| ByteOrder_LITTLE_ENDIAN
| ByteOrder_OPAQUE.
(** Values, and the tables at enumeration.py:745-749 and 1159-1163 *)
Definition ByteOrder_value (x : ByteOrder) : nat :=
  match x with
  | ByteOrder_BIG_ENDIAN => 0
  | ByteOrder_LITTLE_ENDIAN => 1
  | ByteOrder_OPAQUE => 2
  end.
Definition em_ByteOrder : enum_map ByteOrder := mkEnum "ByteOrder" ByteOrder_value
  (Some [
    ("MOST-SIGNIFICANT-BYTE-FIRST", Plain ByteOrder_BIG_ENDIAN);
    ("MOST-SIGNIFICANT-BYTE-LAST", Plain ByteOrder_LITTLE_ENDIAN);
    ("OPAQUE", Plain ByteOrder_OPAQUE)])
  (Some [
    Plain "MOST-SIGNIFICANT-BYTE-FIRST";
    Plain "MOST-SIGNIFICANT-BYTE-LAST";
    Plain "OPAQUE"]).

(** CalibrationAxisCategory, enumeration.py:65-78 *)
Inductive CalibrationAxisCategory :=
| CalibrationAxisCategory_COM_AXIS
| CalibrationAxisCategory_CURVE_AXIS
| CalibrationAxisCategory_FIX_AXIS
| CalibrationAxisCategory_RES_AXIS
| CalibrationAxisCategory_STD_AXIS.
(** Values, and the tables at enumeration.py:750-761 and 1164-1170 *)
Definition CalibrationAxisCategory_value (x : CalibrationAxisCategory) : nat :=
  match x with
  | CalibrationAxisCategory_COM_AXIS => 0
  | CalibrationAxisCategory_CURVE_AXIS => 1
  | CalibrationAxisCategory_FIX_AXIS => 2
  | CalibrationAxisCategory_RES_AXIS => 3
  | CalibrationAxisCategory_STD_AXIS => 4
  end.
Definition em_CalibrationAxisCategory : enum_map CalibrationAxisCategory := mkEnum "CalibrationAxisCategory" CalibrationAxisCategory_value
  (Some [
    ("COM_AXIS", Plain CalibrationAxisCategory_COM_AXIS);
    ("COM-AXIS", Plain CalibrationAxisCategory_COM_AXIS);
    ("CURVE_AXIS", Plain CalibrationAxisCategory_CURVE_AXIS);
    ("CURVE-AXIS", Plain CalibrationAxisCategory_CURVE_AXIS);
    ("FIX_AXIS", Plain CalibrationAxisCategory_FIX_AXIS);
    ("FIX-AXIS", Plain CalibrationAxisCategory_FIX_AXIS);
    ("RES_AXIS", Plain CalibrationAxisCategory_RES_AXIS);
    ("RES-AXIS", Plain CalibrationAxisCategory_RES_AXIS);
    ("STD_AXIS", Plain CalibrationAxisCategory_STD_AXIS);
    ("STD-AXIS", Plain CalibrationAxisCategory_STD_AXIS)])
  (Some [
    Plain "COM-AXIS";
    Plain "CURVE-AXIS";
    Plain "FIX-AXIS";
    Plain "RES-AXIS";
    Plain "STD-AXIS"]).

(** CallPoint, enumeration.py:81-88 *)
Inductive CallPoint :=
| CallPoint_ASYNC
| CallPoint_SYNC.
(** Values, and the tables at enumeration.py:--- and --- *)
Definition CallPoint_value (x : CallPoint) : nat :=
  match x with
  | CallPoint_ASYNC => 0
  | CallPoint_SYNC => 1
  end.
Definition em_CallPoint : enum_map CallPoint := mkEnum "CallPoint" CallPoint_value
  (None)
  (None).

(** CompuScaleContent, enumeration.py:91-99 *)
Inductive CompuScaleContent :=
| CompuScaleContent_NONE
| CompuScaleContent_CONSTANT
| CompuScaleContent_RATIONAL.
(** Values, and the tables at enumeration.py:--- and --- *)
Definition CompuScaleContent_value (x : CompuScaleContent) : nat :=
  match x with
  | CompuScaleContent_NONE => 0
  | CompuScaleContent_CONSTANT => 1
  | CompuScaleContent_RATIONAL => 2
  end.
Definition em_CompuScaleContent : enum_map CompuScaleContent := mkEnum "CompuScaleContent" CompuScaleContent_value
  (None)
  (None).

(** DataFilterType, enumeration.py:102-114 *)
Inductive DataFilterType :=
| DataFilterType_ALWAYS
| DataFilterType_MASKED_NEW_DIFFERS_MASKED_OLD
| DataFilterType_MASKED_NEW_DIFFERS_X
| DataFilterType_MASKED_NEW_EQUALS_X
| DataFilterType_NEVER
| DataFilterType_NEW_IS_OUTSIDE
| DataFilterType_NEW_IS_WITHIN
| DataFilterType_ONE_EVERY_N.
(** Values, and the tables at enumeration.py:762-772 and 1179-1188 *)
Definition DataFilterType_value (x : DataFilterType) : nat :=
  match x with
  | DataFilterType_ALWAYS => 0
  | DataFilterType_MASKED_NEW_DIFFERS_MASKED_OLD => 1
  | DataFilterType_MASKED_NEW_DIFFERS_X => 2
  | DataFilterType_MASKED_NEW_EQUALS_X => 3
  | DataFilterType_NEVER => 4
  | DataFilterType_NEW_IS_OUTSIDE => 5
  | DataFilterType_NEW_IS_WITHIN => 6
  | DataFilterType_ONE_EVERY_N => 7
  end.
Definition em_DataFilterType : enum_map DataFilterType := mkEnum "DataFilterType" DataFilterType_value
  (Some [
    ("ALWAYS", Plain DataFilterType_ALWAYS);
    ("MASKED-NEW-DIFFERS-MASKED-OLD", Plain DataFilterType_MASKED_NEW_DIFFERS_MASKED_OLD);
    ("MASKED-NEW-DIFFERS-X", Plain DataFilterType_MASKED_NEW_DIFFERS_X);
    ("MASKED-NEW-EQUALS-X", Plain DataFilterType_MASKED_NEW_EQUALS_X);
    ("NEVER", Plain DataFilterType_NEVER);
    ("NEW-IS-OUTSIDE", Plain DataFilterType_NEW_IS_OUTSIDE);
    ("NEW-IS-WITHIN", Plain DataFilterType_NEW_IS_WITHIN);
    ("ONE-EVERY-N", Plain DataFilterType_ONE_EVERY_N)])
  (Some [
    Plain "ALWAYS";
    Plain "MASKED-NEW-DIFFERS-MASKED-OLD";
    Plain "MASKED-NEW-DIFFERS-X";
    Plain "MASKED-NEW-EQUALS-X";
    Plain "NEVER";
    Plain "NEW-IS-OUTSIDE";
    Plain "NEW-IS-WITHIN";
    Plain "ONE-EVERY-N"]).

(** DataTransformationErrorHandling, enumeration.py:117-123 *)
Inductive DataTransformationErrorHandling :=
| DataTransformationErrorHandling_NO_TRANSFORMER_ERROR_HANDLING
| DataTransformationErrorHandling_TRANSFORMER_ERROR_HANDLING.
(** Values, and the tables at enumeration.py:773-776 and 1171-1174 *)
Definition DataTransformationErrorHandling_value (x : DataTransformationErrorHandling) : nat :=
  match x with
  | DataTransformationErrorHandling_NO_TRANSFORMER_ERROR_HANDLING => 0
  | DataTransformationErrorHandling_TRANSFORMER_ERROR_HANDLING => 1
  end.
Definition em_DataTransformationErrorHandling : enum_map DataTransformationErrorHandling := mkEnum "DataTransformationErrorHandling" DataTransformationErrorHandling_value
  (Some [
    ("NO-TRANSFORMER-ERROR-HANDLING", Plain DataTransformationErrorHandling_NO_TRANSFORMER_ERROR_HANDLING);
    ("TRANSFORMER-ERROR-HANDLING", Plain DataTransformationErrorHandling_TRANSFORMER_ERROR_HANDLING)])
  (Some [
    Plain "NO-TRANSFORMER-ERROR-HANDLING";
    Plain "TRANSFORMER-ERROR-HANDLING"]).

(** DataTransformationStatusForwarding, enumeration.py:126-132 *)
Inductive DataTransformationStatusForwarding :=
| DataTransformationStatusForwarding_NO_TRANSFORMER_STATUS_FORWARDING
| DataTransformationStatusForwarding_TRANSFORMER_STATUS_FORWARDING.
(** Values, and the tables at enumeration.py:777-780 and 1175-1178 *)
Definition DataTransformationStatusForwarding_value (x : DataTransformationStatusForwarding) : nat :=
  match x with
  | DataTransformationStatusForwarding_NO_TRANSFORMER_STATUS_FORWARDING => 0
  | DataTransformationStatusForwarding_TRANSFORMER_STATUS_FORWARDING => 1
  end.
Definition em_DataTransformationStatusForwarding : enum_map DataTransformationStatusForwarding := mkEnum "DataTransformationStatusForwarding" DataTransformationStatusForwarding_value
  (Some [
    ("NO-TRANSFORMER-STATUS-FORWARDING", Plain DataTransformationStatusForwarding_NO_TRANSFORMER_STATUS_FORWARDING);
    ("TRANSFORMER-STATUS-FORWARDING", Plain DataTransformationStatusForwarding_TRANSFORMER_STATUS_FORWARDING)])
  (Some [
    Plain "NO-TRANSFORMER-STATUS-FORWARDING";
    Plain "TRANSFORMER-STATUS-FORWARDING"]).

(** DisplayPresentation, enumeration.py:135-139 *)
Inductive DisplayPresentation :=
| DisplayPresentation_CONTINUOUS
| DisplayPresentation_DISCRETE.
(** Values, and the tables at enumeration.py:781-784 and 1189-1192 *)
Definition DisplayPresentation_value (x : DisplayPresentation) : nat :=
  match x with
  | DisplayPresentation_CONTINUOUS => 0
  | DisplayPresentation_DISCRETE => 1
  end.
Definition em_DisplayPresentation : enum_map DisplayPresentation := mkEnum "DisplayPresentation" DisplayPresentation_value
  (Some [
    ("PRESENTATION-CONTINUOUS", Plain DisplayPresentation_CONTINUOUS);
    ("PRESENTATION-DISCRETE", Plain DisplayPresentation_DISCRETE)])
  (Some [
    Plain "PRESENTATION-CONTINUOUS";
    Plain "PRESENTATION-DISCRETE"]).

(** EmphasisType, enumeration.py:142-150 *)
Inductive EmphasisType :=
| EmphasisType_BOLD
| EmphasisType_BOLDITALIC
| EmphasisType_ITALIC
| EmphasisType_PLAIN.
(** Values, and the tables at enumeration.py:789-794 and 1197-1202 *)
Definition EmphasisType_value (x : EmphasisType) : nat :=
  match x with
  | EmphasisType_BOLD => 0
  | EmphasisType_BOLDITALIC => 1
  | EmphasisType_ITALIC => 2
  | EmphasisType_PLAIN => 3
  end.
Definition em_EmphasisType : enum_map EmphasisType := mkEnum "EmphasisType" EmphasisType_value
  (Some [
    ("BOLD", Plain EmphasisType_BOLD);
    ("BOLDITALIC", Plain EmphasisType_BOLDITALIC);
    ("ITALIC", Plain EmphasisType_ITALIC);
    ("PLAIN", Plain EmphasisType_PLAIN)])
  (Some [
    Plain "BOLD";
    Plain "BOLDITALIC";
    Plain "ITALIC";
    Plain "PLAIN"]).

(** EmphasisFont, enumeration.py:153-159 *)
Inductive EmphasisFont :=
| EmphasisFont_DEFAULT
| EmphasisFont_MONO.
(** Values, and the tables at enumeration.py:785-788 and 1193-1196 *)
Definition EmphasisFont_value (x : EmphasisFont) : nat :=
  match x with
  | EmphasisFont_DEFAULT => 0
  | EmphasisFont_MONO => 1
  end.
Definition em_EmphasisFont : enum_map EmphasisFont := mkEnum "EmphasisFont" EmphasisFont_value
  (Some [
    ("DEFAULT", Plain EmphasisFont_DEFAULT);
    ("MONO", Plain EmphasisFont_MONO)])
  (Some [
    Plain "DEFAULT";
    Plain "MONO"]).

(** Float, enumeration.py:162-168 *)
Inductive Float :=
| Float_FLOAT
| Float_NO_FLOAT.
(** Values, and the tables at enumeration.py:795-798 and 1203-1206 *)
Definition Float_value (x : Float) : nat :=
  match x with
  | Float_FLOAT => 0
  | Float_NO_FLOAT => 1
  end.
Definition em_Float : enum_map Float := mkEnum "Float" Float_value
  (Some [
    ("FLOAT", Plain Float_FLOAT);
    ("NO-FLOAT", Plain Float_NO_FLOAT)])
  (Some [
    Plain "FLOAT";
    Plain "NO-FLOAT"]).

(** HandleInvalid, enumeration.py:171-179 *)
Inductive HandleInvalid :=
| HandleInvalid_DONT_INVALIDATE
| HandleInvalid_EXTERNAL_REPLACEMENT
| HandleInvalid_KEEP
| HandleInvalid_REPLACE.
(** Values, and the tables at enumeration.py:799-804 and 1207-1212 *)
Definition HandleInvalid_value (x : HandleInvalid) : nat :=
  match x with
  | HandleInvalid_DONT_INVALIDATE => 0
  | HandleInvalid_EXTERNAL_REPLACEMENT => 1
  | HandleInvalid_KEEP => 2
  | HandleInvalid_REPLACE => 3
  end.
Definition em_HandleInvalid : enum_map HandleInvalid := mkEnum "HandleInvalid" HandleInvalid_value
  (Some [
    ("DONT-INVALIDATE", Plain HandleInvalid_DONT_INVALIDATE);
    ("EXTERNAL-REPLACEMENT", Plain HandleInvalid_EXTERNAL_REPLACEMENT);
    ("KEEP", Plain HandleInvalid_KEEP);
    ("REPLACE", Plain HandleInvalid_REPLACE)])
  (Some [
    Plain "DONT-INVALIDATE";
    Plain "EXTERNAL-REPLACEMENT";
    Plain "KEEP";
    Plain "REPLACE"]).

(** HandleOutOfRange, enumeration.py:182-192 *)
Inductive HandleOutOfRange :=
| HandleOutOfRange_DEFAULT
| HandleOutOfRange_EXTERNAL_REPLACEMENT
| HandleOutOfRange_IGNORE
| HandleOutOfRange_INVALID
| HandleOutOfRange_NONE
| HandleOutOfRange_SATURATE.
(** Values, and the tables at enumeration.py:805-812 and 1213-1220 *)
Definition HandleOutOfRange_value (x : HandleOutOfRange) : nat :=
  match x with
  | HandleOutOfRange_DEFAULT => 0
  | HandleOutOfRange_EXTERNAL_REPLACEMENT => 1
  | HandleOutOfRange_IGNORE => 2
  | HandleOutOfRange_INVALID => 3
  | HandleOutOfRange_NONE => 4
  | HandleOutOfRange_SATURATE => 5
  end.
Definition em_HandleOutOfRange : enum_map HandleOutOfRange := mkEnum "HandleOutOfRange" HandleOutOfRange_value
  (Some [
    ("DEFAULT", Plain HandleOutOfRange_DEFAULT);
    ("EXTERNAL-REPLACEMENT", Plain HandleOutOfRange_EXTERNAL_REPLACEMENT);
    ("IGNORE", Plain HandleOutOfRange_IGNORE);
    ("INVALID", Plain HandleOutOfRange_INVALID);
    ("NONE", Plain HandleOutOfRange_NONE);
    ("SATURATE", Plain HandleOutOfRange_SATURATE)])
  (Some [
    Plain "DEFAULT";
    Plain "EXTERNAL-REPLACEMENT";
    Plain "IGNORE";
    Plain "INVALID";
    Plain "NONE";
    Plain "SATURATE"]).

(** HandleOutOfRangeStatus, enumeration.py:195-201 *)
Inductive HandleOutOfRangeStatus :=
| HandleOutOfRangeStatus_INDICATE
| HandleOutOfRangeStatus_SILENT.
(** Values, and the tables at enumeration.py:813-816 and 1221-1224 *)
Definition HandleOutOfRangeStatus_value (x : HandleOutOfRangeStatus) : nat :=
  match x with
  | HandleOutOfRangeStatus_INDICATE => 0
  | HandleOutOfRangeStatus_SILENT => 1
  end.
Definition em_HandleOutOfRangeStatus : enum_map HandleOutOfRangeStatus := mkEnum "HandleOutOfRangeStatus" HandleOutOfRangeStatus_value
  (Some [
    ("INDICATE", Plain HandleOutOfRangeStatus_INDICATE);
    ("SILENT", Plain HandleOutOfRangeStatus_SILENT)])
  (Some [
    Plain "INDICATE";
    Plain "SILENT"]).

(** HandleTimeout, enumeration.py:204-211 *)
Inductive HandleTimeout :=
| HandleTimeout_NONE
| HandleTimeout_REPLACE
| HandleTimeout_REPLACE_BY_TIMEOUT_SUBSTITUTION_VALUE.
(** Values, and the tables at enumeration.py:817-821 and 1225-1229 *)
Definition HandleTimeout_value (x : HandleTimeout) : nat :=
  match x with
  | HandleTimeout_NONE => 0
  | HandleTimeout_REPLACE => 1
  | HandleTimeout_REPLACE_BY_TIMEOUT_SUBSTITUTION_VALUE => 2
  end.
Definition em_HandleTimeout : enum_map HandleTimeout := mkEnum "HandleTimeout" HandleTimeout_value
  (Some [
    ("NONE", Plain HandleTimeout_NONE);
    ("REPLACE", Plain HandleTimeout_REPLACE);
    ("REPLACE-BY-TIMEOUT-SUBSTITUTION-VALUE", Plain HandleTimeout_REPLACE_BY_TIMEOUT_SUBSTITUTION_VALUE)])
  (Some [
    Plain "NONE";
    Plain "REPLACE";
    Plain "REPLACE-BY-TIMEOUT-SUBSTITUTION-VALUE"]).

(** IdentifiableSubTypes, enumeration.py:214-296 *)
Inductive IdentifiableSubTypes :=
| IdentifiableSubTypes_ABSTRACT_IMPLEMENTATION_DATA_TYPE
| IdentifiableSubTypes_ABSTRACT_IMPLEMENTATION_DATA_TYPE_ELEMENT
| IdentifiableSubTypes_ABSTRACT_PROVIDED_PORT_PROTOTYPE
| IdentifiableSubTypes_ABSTRACT_REQUIRED_PORT_PROTOTYPE
| IdentifiableSubTypes_APPLICATION_ARRAY_DATA_TYPE
| IdentifiableSubTypes_APPLICATION_ARRAY_ELEMENT
| IdentifiableSubTypes_APPLICATION_COMPOSITE_DATA_TYPE
| IdentifiableSubTypes_APPLICATION_COMPOSITE_ELEMENT_DATA_PROTOTYPE
| IdentifiableSubTypes_APPLICATION_DATA_TYPE
| IdentifiableSubTypes_APPLICATION_DEFERRED_DATA_TYPE
| IdentifiableSubTypes_APPLICATION_ERROR
| IdentifiableSubTypes_APPLICATION_PRIMITIVE_DATA_TYPE
| IdentifiableSubTypes_APPLICATION_RECORD_DATA_TYPE
| IdentifiableSubTypes_APPLICATION_RECORD_ELEMENT
| IdentifiableSubTypes_APPLICATION_SW_COMPONENT_TYPE
| IdentifiableSubTypes_AR_PACKAGE
| IdentifiableSubTypes_ARGUMENT_DATA_PROTOTYPE
| IdentifiableSubTypes_ASYNCHRONOUS_SERVER_CALL_POINT
| IdentifiableSubTypes_ASYNCHRONOUS_SERVER_CALL_RESULT_POINT
| IdentifiableSubTypes_ASYNCHRONOUS_SERVER_CALL_RETURNS_EVENT
| IdentifiableSubTypes_AUTOSAR_DATA_PROTOTYPE
| IdentifiableSubTypes_AUTOSAR_DATA_TYPE
| IdentifiableSubTypes_BACKGROUND_EVENT
| IdentifiableSubTypes_BSW_MODULE_ENTRY
| IdentifiableSubTypes_CLIENT_SERVER_INTERFACE
| IdentifiableSubTypes_CLIENT_SERVER_OPERATION
| IdentifiableSubTypes_COMPOSITION_SW_COMPONENT_TYPE
| IdentifiableSubTypes_COMPU_METHOD
| IdentifiableSubTypes_CONSTANT_SPECIFICATION
| IdentifiableSubTypes_DATA_CONSTR
| IdentifiableSubTypes_DATA_PROTOTYPE
| IdentifiableSubTypes_DATA_RECEIVE_ERROR_EVENT
| IdentifiableSubTypes_DATA_RECEIVED_EVENT
| IdentifiableSubTypes_DATA_SEND_COMPLETED_EVENT
| IdentifiableSubTypes_DATA_TYPE_MAPPING_SET
| IdentifiableSubTypes_DATA_WRITE_COMPLETED_EVENT
| IdentifiableSubTypes_E2E_PROFILE_COMPATIBILITY_PROPS
| IdentifiableSubTypes_EXCLUSIVE_AREA
| IdentifiableSubTypes_EXCLUSIVE_AREA_NESTING_ORDER
| IdentifiableSubTypes_EXTERNAL_TRIGGER_OCCURRED_EVENT
| IdentifiableSubTypes_IMPLEMENTATION_DATA_TYPE
| IdentifiableSubTypes_IMPLEMENTATION_DATA_TYPE_ELEMENT
| IdentifiableSubTypes_INIT_EVENT
| IdentifiableSubTypes_INTERNAL_TRIGGER_OCCURRED_EVENT
| IdentifiableSubTypes_INTERNAL_TRIGGERING_POINT
| IdentifiableSubTypes_MODE_DECLARATION
| IdentifiableSubTypes_MODE_DECLARATION_GROUP
| IdentifiableSubTypes_MODE_DECLARATION_GROUP_PROTOTYPE
| IdentifiableSubTypes_MODE_SWITCH_INTERFACE
| IdentifiableSubTypes_MODE_SWITCH_POINT
| IdentifiableSubTypes_MODE_SWITCHED_ACK_EVENT
| IdentifiableSubTypes_NV_DATA_INTERFACE
| IdentifiableSubTypes_OPERATION_INVOKED_EVENT
| IdentifiableSubTypes_P_PORT_PROTOTYPE
| IdentifiableSubTypes_PARAMETER_DATA_PROTOTYPE
| IdentifiableSubTypes_PARAMETER_INTERFACE
| IdentifiableSubTypes_PHYSICAL_DIMENSION
| IdentifiableSubTypes_PORT_PROTOTYPE
| IdentifiableSubTypes_PR_PORT_PROTOTYPE
| IdentifiableSubTypes_R_PORT_PROTOTYPE
| IdentifiableSubTypes_RUNNABLE_ENTITY
| IdentifiableSubTypes_SENDER_RECEIVER_INTERFACE
| IdentifiableSubTypes_SW_ADDR_METHOD
| IdentifiableSubTypes_SW_BASE_TYPE
| IdentifiableSubTypes_SW_COMPONENT_PROTOTYPE
| IdentifiableSubTypes_SWC_IMPLEMENTATION
| IdentifiableSubTypes_SWC_INTERNAL_BEHAVIOR
| IdentifiableSubTypes_SWC_MODE_MANAGER_ERROR_EVENT
| IdentifiableSubTypes_SWC_MODE_SWITCH_EVENT
| IdentifiableSubTypes_TIMING_EVENT
| IdentifiableSubTypes_TRANSFORMER_HARD_ERROR_EVENT
| IdentifiableSubTypes_TRIGGER
| IdentifiableSubTypes_UNIT
| IdentifiableSubTypes_VARIABLE_ACCESS
| IdentifiableSubTypes_VARIABLE_DATA_PROTOTYPE.
(** Values, and the tables at enumeration.py:822-898 and 1230-1306 *)
Definition IdentifiableSubTypes_value (x : IdentifiableSubTypes) : nat :=
  match x with
  | IdentifiableSubTypes_ABSTRACT_IMPLEMENTATION_DATA_TYPE => 0
  | IdentifiableSubTypes_ABSTRACT_IMPLEMENTATION_DATA_TYPE_ELEMENT => 1
  | IdentifiableSubTypes_ABSTRACT_PROVIDED_PORT_PROTOTYPE => 2
  | IdentifiableSubTypes_ABSTRACT_REQUIRED_PORT_PROTOTYPE => 3
  | IdentifiableSubTypes_APPLICATION_ARRAY_DATA_TYPE => 4
  | IdentifiableSubTypes_APPLICATION_ARRAY_ELEMENT => 5
  | IdentifiableSubTypes_APPLICATION_COMPOSITE_DATA_TYPE => 6
  | IdentifiableSubTypes_APPLICATION_COMPOSITE_ELEMENT_DATA_PROTOTYPE => 7
  | IdentifiableSubTypes_APPLICATION_DATA_TYPE => 8
  | IdentifiableSubTypes_APPLICATION_DEFERRED_DATA_TYPE => 9
  | IdentifiableSubTypes_APPLICATION_ERROR => 10
  | IdentifiableSubTypes_APPLICATION_PRIMITIVE_DATA_TYPE => 11
  | IdentifiableSubTypes_APPLICATION_RECORD_DATA_TYPE => 12
  | IdentifiableSubTypes_APPLICATION_RECORD_ELEMENT => 13
  | IdentifiableSubTypes_APPLICATION_SW_COMPONENT_TYPE => 14
  | IdentifiableSubTypes_AR_PACKAGE => 15
  | IdentifiableSubTypes_ARGUMENT_DATA_PROTOTYPE => 16
  | IdentifiableSubTypes_ASYNCHRONOUS_SERVER_CALL_POINT => 17
  | IdentifiableSubTypes_ASYNCHRONOUS_SERVER_CALL_RESULT_POINT => 18
  | IdentifiableSubTypes_ASYNCHRONOUS_SERVER_CALL_RETURNS_EVENT => 19
  | IdentifiableSubTypes_AUTOSAR_DATA_PROTOTYPE => 20
  | IdentifiableSubTypes_AUTOSAR_DATA_TYPE => 21
  | IdentifiableSubTypes_BACKGROUND_EVENT => 22
  | IdentifiableSubTypes_BSW_MODULE_ENTRY => 23
  | IdentifiableSubTypes_CLIENT_SERVER_INTERFACE => 24
  | IdentifiableSubTypes_CLIENT_SERVER_OPERATION => 25
  | IdentifiableSubTypes_COMPOSITION_SW_COMPONENT_TYPE => 26
  | IdentifiableSubTypes_COMPU_METHOD => 27
  | IdentifiableSubTypes_CONSTANT_SPECIFICATION => 28
  | IdentifiableSubTypes_DATA_CONSTR => 29
  | IdentifiableSubTypes_DATA_PROTOTYPE => 30
  | IdentifiableSubTypes_DATA_RECEIVE_ERROR_EVENT => 31
  | IdentifiableSubTypes_DATA_RECEIVED_EVENT => 32
  | IdentifiableSubTypes_DATA_SEND_COMPLETED_EVENT => 33
  | IdentifiableSubTypes_DATA_TYPE_MAPPING_SET => 34
  | IdentifiableSubTypes_DATA_WRITE_COMPLETED_EVENT => 35
  | IdentifiableSubTypes_E2E_PROFILE_COMPATIBILITY_PROPS => 36
  | IdentifiableSubTypes_EXCLUSIVE_AREA => 37
  | IdentifiableSubTypes_EXCLUSIVE_AREA_NESTING_ORDER => 38
  | IdentifiableSubTypes_EXTERNAL_TRIGGER_OCCURRED_EVENT => 39
  | IdentifiableSubTypes_IMPLEMENTATION_DATA_TYPE => 40
  | IdentifiableSubTypes_IMPLEMENTATION_DATA_TYPE_ELEMENT => 41
  | IdentifiableSubTypes_INIT_EVENT => 42
  | IdentifiableSubTypes_INTERNAL_TRIGGER_OCCURRED_EVENT => 43
  | IdentifiableSubTypes_INTERNAL_TRIGGERING_POINT => 44
  | IdentifiableSubTypes_MODE_DECLARATION => 45
  | IdentifiableSubTypes_MODE_DECLARATION_GROUP => 46
  | IdentifiableSubTypes_MODE_DECLARATION_GROUP_PROTOTYPE => 47
  | IdentifiableSubTypes_MODE_SWITCH_INTERFACE => 48
  | IdentifiableSubTypes_MODE_SWITCH_POINT => 49
  | IdentifiableSubTypes_MODE_SWITCHED_ACK_EVENT => 50
  | IdentifiableSubTypes_NV_DATA_INTERFACE => 51
  | IdentifiableSubTypes_OPERATION_INVOKED_EVENT => 52
  | IdentifiableSubTypes_P_PORT_PROTOTYPE => 53
  | IdentifiableSubTypes_PARAMETER_DATA_PROTOTYPE => 54
  | IdentifiableSubTypes_PARAMETER_INTERFACE => 55
  | IdentifiableSubTypes_PHYSICAL_DIMENSION => 56
  | IdentifiableSubTypes_PORT_PROTOTYPE => 57
  | IdentifiableSubTypes_PR_PORT_PROTOTYPE => 58
  | IdentifiableSubTypes_R_PORT_PROTOTYPE => 59
  | IdentifiableSubTypes_RUNNABLE_ENTITY => 60
  | IdentifiableSubTypes_SENDER_RECEIVER_INTERFACE => 61
  | IdentifiableSubTypes_SW_ADDR_METHOD => 62
  | IdentifiableSubTypes_SW_BASE_TYPE => 63
  | IdentifiableSubTypes_SW_COMPONENT_PROTOTYPE => 64
  | IdentifiableSubTypes_SWC_IMPLEMENTATION => 65
  | IdentifiableSubTypes_SWC_INTERNAL_BEHAVIOR => 66
  | IdentifiableSubTypes_SWC_MODE_MANAGER_ERROR_EVENT => 67
  | IdentifiableSubTypes_SWC_MODE_SWITCH_EVENT => 68
  | IdentifiableSubTypes_TIMING_EVENT => 69
  | IdentifiableSubTypes_TRANSFORMER_HARD_ERROR_EVENT => 70
  | IdentifiableSubTypes_TRIGGER => 71
  | IdentifiableSubTypes_UNIT => 72
  | IdentifiableSubTypes_VARIABLE_ACCESS => 73
  | IdentifiableSubTypes_VARIABLE_DATA_PROTOTYPE => 74
  end.
Definition em_IdentifiableSubTypes : enum_map IdentifiableSubTypes := mkEnum "IdentifiableSubTypes" IdentifiableSubTypes_value
  (Some [
    ("ABSTRACT-IMPLEMENTATION-DATA-TYPE", Plain IdentifiableSubTypes_ABSTRACT_IMPLEMENTATION_DATA_TYPE);
    ("ABSTRACT-IMPLEMENTATION-DATA-TYPE-ELEMENT", Plain IdentifiableSubTypes_ABSTRACT_IMPLEMENTATION_DATA_TYPE_ELEMENT);
    ("ABSTRACT-PROVIDED-PORT-PROTOTYPE", Plain IdentifiableSubTypes_ABSTRACT_PROVIDED_PORT_PROTOTYPE);
    ("ABSTRACT-REQUIRED-PORT-PROTOTYPE", Plain IdentifiableSubTypes_ABSTRACT_REQUIRED_PORT_PROTOTYPE);
    ("APPLICATION-ARRAY-DATA-TYPE", Plain IdentifiableSubTypes_APPLICATION_ARRAY_DATA_TYPE);
    ("APPLICATION-ARRAY-ELEMENT", Plain IdentifiableSubTypes_APPLICATION_ARRAY_ELEMENT);
    ("APPLICATION-COMPOSITE-DATA-TYPE", Plain IdentifiableSubTypes_APPLICATION_COMPOSITE_DATA_TYPE);
    ("APPLICATION-COMPOSITE-ELEMENT-DATA-PROTOTYPE", Plain IdentifiableSubTypes_APPLICATION_COMPOSITE_ELEMENT_DATA_PROTOTYPE);
    ("APPLICATION-DATA-TYPE", Plain IdentifiableSubTypes_APPLICATION_DATA_TYPE);
    ("APPLICATION-DEFERRED-DATA-TYPE", Plain IdentifiableSubTypes_APPLICATION_DEFERRED_DATA_TYPE);
    ("APPLICATION-ERROR", Plain IdentifiableSubTypes_APPLICATION_ERROR);
    ("APPLICATION-PRIMITIVE-DATA-TYPE", Plain IdentifiableSubTypes_APPLICATION_PRIMITIVE_DATA_TYPE);
    ("APPLICATION-RECORD-DATA-TYPE", Plain IdentifiableSubTypes_APPLICATION_RECORD_DATA_TYPE);
    ("APPLICATION-RECORD-ELEMENT", Plain IdentifiableSubTypes_APPLICATION_RECORD_ELEMENT);
    ("APPLICATION-SW-COMPONENT-TYPE", Plain IdentifiableSubTypes_APPLICATION_SW_COMPONENT_TYPE);
    ("AR-PACKAGE", Plain IdentifiableSubTypes_AR_PACKAGE);
    ("ARGUMENT-DATA-PROTOTYPE", Plain IdentifiableSubTypes_ARGUMENT_DATA_PROTOTYPE);
    ("ASYNCHRONOUS-SERVER-CALL-POINT", Plain IdentifiableSubTypes_ASYNCHRONOUS_SERVER_CALL_POINT);
    ("ASYNCHRONOUS-SERVER-CALL-RESULT-POINT", Plain IdentifiableSubTypes_ASYNCHRONOUS_SERVER_CALL_RESULT_POINT);
    ("ASYNCHRONOUS-SERVER-CALL-RETURNS-EVENT", Plain IdentifiableSubTypes_ASYNCHRONOUS_SERVER_CALL_RETURNS_EVENT);
    ("AUTOSAR-DATA-PROTOTYPE", Plain IdentifiableSubTypes_AUTOSAR_DATA_PROTOTYPE);
    ("AUTOSAR-DATA-TYPE", Plain IdentifiableSubTypes_AUTOSAR_DATA_TYPE);
    ("BACKGROUND-EVENT", Plain IdentifiableSubTypes_BACKGROUND_EVENT);
    ("BSW-MODULE-ENTRY", Plain IdentifiableSubTypes_BSW_MODULE_ENTRY);
    ("CLIENT-SERVER-INTERFACE", Plain IdentifiableSubTypes_CLIENT_SERVER_INTERFACE);
    ("CLIENT-SERVER-OPERATION", Plain IdentifiableSubTypes_CLIENT_SERVER_OPERATION);
    ("COMPOSITION-SW-COMPONENT-TYPE", Plain IdentifiableSubTypes_COMPOSITION_SW_COMPONENT_TYPE);
    ("COMPU-METHOD", Plain IdentifiableSubTypes_COMPU_METHOD);
    ("CONSTANT-SPECIFICATION", Plain IdentifiableSubTypes_CONSTANT_SPECIFICATION);
    ("DATA-CONSTR", Plain IdentifiableSubTypes_DATA_CONSTR);
    ("DATA-PROTOTYPE", Plain IdentifiableSubTypes_DATA_PROTOTYPE);
    ("DATA-RECEIVE-ERROR-EVENT", Plain IdentifiableSubTypes_DATA_RECEIVE_ERROR_EVENT);
    ("DATA-RECEIVED-EVENT", Plain IdentifiableSubTypes_DATA_RECEIVED_EVENT);
    ("DATA-SEND-COMPLETED-EVENT", Plain IdentifiableSubTypes_DATA_SEND_COMPLETED_EVENT);
    ("DATA-TYPE-MAPPING-SET", Plain IdentifiableSubTypes_DATA_TYPE_MAPPING_SET);
    ("DATA-WRITE-COMPLETED-EVENT", Plain IdentifiableSubTypes_DATA_WRITE_COMPLETED_EVENT);
    ("E-2-E-PROFILE-COMPATIBILITY-PROPS", Plain IdentifiableSubTypes_E2E_PROFILE_COMPATIBILITY_PROPS);
    ("EXCLUSIVE-AREA", Plain IdentifiableSubTypes_EXCLUSIVE_AREA);
    ("EXCLUSIVE-AREA-NESTING-ORDER", Plain IdentifiableSubTypes_EXCLUSIVE_AREA_NESTING_ORDER);
    ("EXTERNAL-TRIGGER-OCCURRED-EVENT", Plain IdentifiableSubTypes_EXTERNAL_TRIGGER_OCCURRED_EVENT);
    ("IMPLEMENTATION-DATA-TYPE", Plain IdentifiableSubTypes_IMPLEMENTATION_DATA_TYPE);
    ("IMPLEMENTATION-DATA-TYPE-ELEMENT", Plain IdentifiableSubTypes_IMPLEMENTATION_DATA_TYPE_ELEMENT);
    ("INIT-EVENT", Plain IdentifiableSubTypes_INIT_EVENT);
    ("INTERNAL-TRIGGER-OCCURRED-EVENT", Plain IdentifiableSubTypes_INTERNAL_TRIGGER_OCCURRED_EVENT);
    ("INTERNAL-TRIGGERING-POINT", Plain IdentifiableSubTypes_INTERNAL_TRIGGERING_POINT);
    ("MODE-DECLARATION", Plain IdentifiableSubTypes_MODE_DECLARATION);
    ("MODE-DECLARATION-GROUP", Plain IdentifiableSubTypes_MODE_DECLARATION_GROUP);
    ("MODE-DECLARATION-GROUP-PROTOTYPE", Plain IdentifiableSubTypes_MODE_DECLARATION_GROUP_PROTOTYPE);
    ("MODE-SWITCH-INTERFACE", Plain IdentifiableSubTypes_MODE_SWITCH_INTERFACE);
    ("MODE-SWITCH-POINT", Plain IdentifiableSubTypes_MODE_SWITCH_POINT);
    ("MODE-SWITCHED-ACK-EVENT", Plain IdentifiableSubTypes_MODE_SWITCHED_ACK_EVENT);
    ("NV-DATA-INTERFACE", Plain IdentifiableSubTypes_NV_DATA_INTERFACE);
    ("OPERATION-INVOKED-EVENT", Plain IdentifiableSubTypes_OPERATION_INVOKED_EVENT);
    ("P-PORT-PROTOTYPE", Plain IdentifiableSubTypes_P_PORT_PROTOTYPE);
    ("PARAMETER-DATA-PROTOTYPE", Plain IdentifiableSubTypes_PARAMETER_DATA_PROTOTYPE);
    ("PARAMETER-INTERFACE", Plain IdentifiableSubTypes_PARAMETER_INTERFACE);
    ("PHYSICAL-DIMENSION", Plain IdentifiableSubTypes_PHYSICAL_DIMENSION);
    ("PORT-PROTOTYPE", Plain IdentifiableSubTypes_PORT_PROTOTYPE);
    ("PR-PORT-PROTOTYPE", Plain IdentifiableSubTypes_PR_PORT_PROTOTYPE);
    ("R-PORT-PROTOTYPE", Plain IdentifiableSubTypes_R_PORT_PROTOTYPE);
    ("RUNNABLE-ENTITY", Plain IdentifiableSubTypes_RUNNABLE_ENTITY);
    ("SENDER-RECEIVER-INTERFACE", Plain IdentifiableSubTypes_SENDER_RECEIVER_INTERFACE);
    ("SW-ADDR-METHOD", Plain IdentifiableSubTypes_SW_ADDR_METHOD);
    ("SW-BASE-TYPE", Plain IdentifiableSubTypes_SW_BASE_TYPE);
    ("SW-COMPONENT-PROTOTYPE", Plain IdentifiableSubTypes_SW_COMPONENT_PROTOTYPE);
    ("SWC-IMPLEMENTATION", Plain IdentifiableSubTypes_SWC_IMPLEMENTATION);
    ("SWC-INTERNAL-BEHAVIOR", Plain IdentifiableSubTypes_SWC_INTERNAL_BEHAVIOR);
    ("SWC-MODE-MANAGER-ERROR-EVENT", Plain IdentifiableSubTypes_SWC_MODE_MANAGER_ERROR_EVENT);
    ("SWC-MODE-SWITCH-EVENT", Plain IdentifiableSubTypes_SWC_MODE_SWITCH_EVENT);
    ("TIMING-EVENT", Plain IdentifiableSubTypes_TIMING_EVENT);
    ("TRANSFORMER-HARD-ERROR-EVENT", Plain IdentifiableSubTypes_TRANSFORMER_HARD_ERROR_EVENT);
    ("TRIGGER", Plain IdentifiableSubTypes_TRIGGER);
    ("UNIT", Plain IdentifiableSubTypes_UNIT);
    ("VARIABLE-ACCESS", Plain IdentifiableSubTypes_VARIABLE_ACCESS);
    ("VARIABLE-DATA-PROTOTYPE", Plain IdentifiableSubTypes_VARIABLE_DATA_PROTOTYPE)])
  (Some [
    Plain "ABSTRACT-IMPLEMENTATION-DATA-TYPE";
    Plain "ABSTRACT-IMPLEMENTATION-DATA-TYPE-ELEMENT";
    Plain "ABSTRACT-PROVIDED-PORT-PROTOTYPE";
    Plain "ABSTRACT-REQUIRED-PORT-PROTOTYPE";
    Plain "APPLICATION-ARRAY-DATA-TYPE";
    Plain "APPLICATION-ARRAY-ELEMENT";
    Plain "APPLICATION-COMPOSITE-DATA-TYPE";
    Plain "APPLICATION-COMPOSITE-ELEMENT-DATA-PROTOTYPE";
    Plain "APPLICATION-DATA-TYPE";
    Plain "APPLICATION-DEFERRED-DATA-TYPE";
    Plain "APPLICATION-ERROR";
    Plain "APPLICATION-PRIMITIVE-DATA-TYPE";
    Plain "APPLICATION-RECORD-DATA-TYPE";
    Plain "APPLICATION-RECORD-ELEMENT";
    Plain "APPLICATION-SW-COMPONENT-TYPE";
    Plain "AR-PACKAGE";
    Plain "ARGUMENT-DATA-PROTOTYPE";
    Plain "ASYNCHRONOUS-SERVER-CALL-POINT";
    Plain "ASYNCHRONOUS-SERVER-CALL-RESULT-POINT";
    Plain "ASYNCHRONOUS-SERVER-CALL-RETURNS-EVENT";
    Plain "AUTOSAR-DATA-PROTOTYPE";
    Plain "AUTOSAR-DATA-TYPE";
    Plain "BACKGROUND-EVENT";
    Plain "BSW-MODULE-ENTRY";
    Plain "CLIENT-SERVER-INTERFACE";
    Plain "CLIENT-SERVER-OPERATION";
    Plain "COMPOSITION-SW-COMPONENT-TYPE";
    Plain "COMPU-METHOD";
    Plain "CONSTANT-SPECIFICATION";
    Plain "DATA-CONSTR";
    Plain "DATA-PROTOTYPE";
    Plain "DATA-RECEIVE-ERROR-EVENT";
    Plain "DATA-RECEIVED-EVENT";
    Plain "DATA-SEND-COMPLETED-EVENT";
    Plain "DATA-TYPE-MAPPING-SET";
    Plain "DATA-WRITE-COMPLETED-EVENT";
    Plain "E-2-E-PROFILE-COMPATIBILITY-PROPS";
    Plain "EXCLUSIVE-AREA";
    Plain "EXCLUSIVE-AREA-NESTING-ORDER";
    Plain "EXTERNAL-TRIGGER-OCCURRED-EVENT";
    Plain "IMPLEMENTATION-DATA-TYPE";
    Plain "IMPLEMENTATION-DATA-TYPE-ELEMENT";
    Plain "INIT-EVENT";
    Plain "INTERNAL-TRIGGER-OCCURRED-EVENT";
    Plain "INTERNAL-TRIGGERING-POINT";
    Plain "MODE-DECLARATION";
    Plain "MODE-DECLARATION-GROUP";
    Plain "MODE-DECLARATION-GROUP-PROTOTYPE";
    Plain "MODE-SWITCH-INTERFACE";
    Plain "MODE-SWITCH-POINT";
    Plain "MODE-SWITCHED-ACK-EVENT";
    Plain "NV-DATA-INTERFACE";
    Plain "OPERATION-INVOKED-EVENT";
    Plain "P-PORT-PROTOTYPE";
    Plain "PARAMETER-DATA-PROTOTYPE";
    Plain "PARAMETER-INTERFACE";
    Plain "PHYSICAL-DIMENSION";
    Plain "PORT-PROTOTYPE";
    Plain "PR-PORT-PROTOTYPE";
    Plain "R-PORT-PROTOTYPE";
    Plain "RUNNABLE-ENTITY";
    Plain "SENDER-RECEIVER-INTERFACE";
    Plain "SW-ADDR-METHOD";
    Plain "SW-BASE-TYPE";
    Plain "SW-COMPONENT-PROTOTYPE";
    Plain "SWC-IMPLEMENTATION";
    Plain "SWC-INTERNAL-BEHAVIOR";
    Plain "SWC-MODE-MANAGER-ERROR-EVENT";
    Plain "SWC-MODE-SWITCH-EVENT";
    Plain "TIMING-EVENT";
    Plain "TRANSFORMER-HARD-ERROR-EVENT";
    Plain "TRIGGER";
    Plain "UNIT";
    Plain "VARIABLE-ACCESS";
    Plain "VARIABLE-DATA-PROTOTYPE"]).

(** IntervalType, enumeration.py:299-307 *)
Inductive IntervalType :=
| IntervalType_CLOSED
| IntervalType_OPEN.
(** Values, and the tables at enumeration.py:899-902 and 1307-1310 *)
Definition IntervalType_value (x : IntervalType) : nat :=
  match x with
  | IntervalType_CLOSED => 0
  | IntervalType_OPEN => 1
  end.
Definition em_IntervalType : enum_map IntervalType := mkEnum "IntervalType" IntervalType_value
  (Some [
    ("CLOSED", Plain IntervalType_CLOSED);
    ("OPEN", Plain IntervalType_OPEN)])
  (Some [
    Plain "CLOSED";
    Plain "OPEN"]).

(** KeepWithPrevious, enumeration.py:310-316 *)
Inductive KeepWithPrevious :=
| KeepWithPrevious_KEEP
| KeepWithPrevious_NO_KEEP.
(** Values, and the tables at enumeration.py:903-906 and 1311-1314 *)
Definition KeepWithPrevious_value (x : KeepWithPrevious) : nat :=
  match x with
  | KeepWithPrevious_KEEP => 0
  | KeepWithPrevious_NO_KEEP => 1
  end.
Definition em_KeepWithPrevious : enum_map KeepWithPrevious := mkEnum "KeepWithPrevious" KeepWithPrevious_value
  (Some [
    ("KEEP", Plain KeepWithPrevious_KEEP);
    ("NO-KEEP", Plain KeepWithPrevious_NO_KEEP)])
  (Some [
    Plain "KEEP";
    Plain "NO-KEEP"]).

(** Language, enumeration.py:319-460 *)
Inductive Language :=
| Language_AA
| Language_AB
| Language_AF
| Language_AM
| Language_AR
| Language_AS
| Language_AY
| Language_AZ
| Language_BA
| Language_BE
| Language_BG
| Language_BH
| Language_BI
| Language_BN
| Language_BO
| Language_BR
| Language_CA
| Language_CO
| Language_CS
| Language_CY
| Language_DA
| Language_DE
| Language_DZ
| Language_EL
| Language_EN
| Language_EO
| Language_ES
| Language_ET
| Language_EU
| Language_FA
| Language_FI
| Language_FJ
| Language_FO
| Language_FOR_ALL
| Language_FR
| Language_FY
| Language_GA
| Language_GD
| Language_GL
| Language_GN
| Language_GU
| Language_HA
| Language_HI
| Language_HR
| Language_HU
| Language_HY
| Language_IA
| Language_IE
| Language_IK
| Language_IN
| Language_IS
| Language_IT
| Language_IW
| Language_JA
| Language_JI
| Language_JW
| Language_KA
| Language_KK
| Language_KL
| Language_KM
| Language_KN
| Language_KO
| Language_KS
| Language_KU
| Language_KY
| Language_LA
| Language_LN
| Language_LO
| Language_LT
| Language_LV
| Language_MG
| Language_MI
| Language_MK
| Language_ML
| Language_MN
| Language_MO
| Language_MR
| Language_MS
| Language_MT
| Language_MY
| Language_NA
| Language_NE
| Language_NL
| Language_NO
| Language_OC
| Language_OM
| Language_OR
| Language_PA
| Language_PL
| Language_PS
| Language_PT
| Language_QU
| Language_RM
| Language_RN
| Language_RO
| Language_RU
| Language_RW
| Language_SA
| Language_SD
| Language_SG
| Language_SH
| Language_SI
| Language_SK
| Language_SL
| Language_SM
| Language_SN
| Language_SO
| Language_SQ
| Language_SR
| Language_SS
| Language_ST
| Language_SU
| Language_SV
| Language_SW
| Language_TA
| Language_TE
| Language_TG
| Language_TH
| Language_TI
| Language_TK
| Language_TL
| Language_TN
| Language_TO
| Language_TR
| Language_TS
| Language_TT
| Language_TW
| Language_UK
| Language_UR
| Language_UZ
| Language_VI
| Language_VO
| Language_WO
| Language_XH
| Language_YO
| Language_ZH
| Language_ZU.
(** Values, and the tables at enumeration.py:907-1045 and 1315-1453 *)
Definition Language_value (x : Language) : nat :=
  match x with
  | Language_AA => 0
  | Language_AB => 1
  | Language_AF => 2
  | Language_AM => 3
  | Language_AR => 4
  | Language_AS => 5
  | Language_AY => 6
  | Language_AZ => 7
  | Language_BA => 8
  | Language_BE => 9
  | Language_BG => 10
  | Language_BH => 11
  | Language_BI => 12
  | Language_BN => 13
  | Language_BO => 14
  | Language_BR => 15
  | Language_CA => 16
  | Language_CO => 17
  | Language_CS => 18
  | Language_CY => 19
  | Language_DA => 20
  | Language_DE => 21
  | Language_DZ => 22
  | Language_EL => 23
  | Language_EN => 24
  | Language_EO => 25
  | Language_ES => 26
  | Language_ET => 27
  | Language_EU => 28
  | Language_FA => 29
  | Language_FI => 30
  | Language_FJ => 31
  | Language_FO => 32
  | Language_FOR_ALL => 33
  | Language_FR => 34
  | Language_FY => 35
  | Language_GA => 36
  | Language_GD => 37
  | Language_GL => 38
  | Language_GN => 39
  | Language_GU => 40
  | Language_HA => 41
  | Language_HI => 42
  | Language_HR => 43
  | Language_HU => 44
  | Language_HY => 45
  | Language_IA => 46
  | Language_IE => 47
  | Language_IK => 48
  | Language_IN => 49
  | Language_IS => 50
  | Language_IT => 51
  | Language_IW => 52
  | Language_JA => 53
  | Language_JI => 54
  | Language_JW => 55
  | Language_KA => 56
  | Language_KK => 57
  | Language_KL => 58
  | Language_KM => 59
  | Language_KN => 60
  | Language_KO => 61
  | Language_KS => 62
  | Language_KU => 63
  | Language_KY => 64
  | Language_LA => 65
  | Language_LN => 66
  | Language_LO => 67
  | Language_LT => 68
  | Language_LV => 69
  | Language_MG => 70
  | Language_MI => 71
  | Language_MK => 72
  | Language_ML => 73
  | Language_MN => 74
  | Language_MO => 75
  | Language_MR => 76
  | Language_MS => 77
  | Language_MT => 78
  | Language_MY => 79
  | Language_NA => 80
  | Language_NE => 81
  | Language_NL => 82
  | Language_NO => 83
  | Language_OC => 84
  | Language_OM => 85
  | Language_OR => 86
  | Language_PA => 87
  | Language_PL => 88
  | Language_PS => 89
  | Language_PT => 90
  | Language_QU => 91
  | Language_RM => 92
  | Language_RN => 93
  | Language_RO => 94
  | Language_RU => 95
  | Language_RW => 96
  | Language_SA => 97
  | Language_SD => 98
  | Language_SG => 99
  | Language_SH => 100
  | Language_SI => 101
  | Language_SK => 102
  | Language_SL => 103
  | Language_SM => 104
  | Language_SN => 105
  | Language_SO => 106
  | Language_SQ => 107
  | Language_SR => 108
  | Language_SS => 109
  | Language_ST => 110
  | Language_SU => 111
  | Language_SV => 112
  | Language_SW => 113
  | Language_TA => 114
  | Language_TE => 115
  | Language_TG => 116
  | Language_TH => 117
  | Language_TI => 118
  | Language_TK => 119
  | Language_TL => 120
  | Language_TN => 121
  | Language_TO => 122
  | Language_TR => 123
  | Language_TS => 124
  | Language_TT => 125
  | Language_TW => 126
  | Language_UK => 127
  | Language_UR => 128
  | Language_UZ => 129
  | Language_VI => 130
  | Language_VO => 131
  | Language_WO => 132
  | Language_XH => 133
  | Language_YO => 134
  | Language_ZH => 135
  | Language_ZU => 136
  end.
Definition em_Language : enum_map Language := mkEnum "Language" Language_value
  (Some [
    ("AA", Plain Language_AA);
    ("AB", Plain Language_AB);
    ("AF", Plain Language_AF);
    ("AM", Plain Language_AM);
    ("AR", Plain Language_AR);
    ("AS", Plain Language_AS);
    ("AY", Plain Language_AY);
    ("AZ", Plain Language_AZ);
    ("BA", Plain Language_BA);
    ("BE", Plain Language_BE);
    ("BG", Plain Language_BG);
    ("BH", Plain Language_BH);
    ("BI", Plain Language_BI);
    ("BN", Plain Language_BN);
    ("BO", Plain Language_BO);
    ("BR", Plain Language_BR);
    ("CA", Plain Language_CA);
    ("CO", Plain Language_CO);
    ("CS", Plain Language_CS);
    ("CY", Plain Language_CY);
    ("DA", Plain Language_DA);
    ("DE", Plain Language_DE);
    ("DZ", Plain Language_DZ);
    ("EL", Plain Language_EL);
    ("EN", Plain Language_EN);
    ("EO", Plain Language_EO);
    ("ES", Plain Language_ES);
    ("ET", Plain Language_ET);
    ("EU", Plain Language_EU);
    ("FA", Plain Language_FA);
    ("FI", Plain Language_FI);
    ("FJ", Plain Language_FJ);
    ("FO", Plain Language_FO);
    ("FOR-ALL", Plain Language_FOR_ALL);
    ("FR", Plain Language_FR);
    ("FY", Plain Language_FY);
    ("GA", Plain Language_GA);
    ("GD", Plain Language_GD);
    ("GL", Plain Language_GL);
    ("GN", Plain Language_GN);
    ("GU", Plain Language_GU);
    ("HA", Plain Language_HA);
    ("HI", Plain Language_HI);
    ("HR", Plain Language_HR);
    ("HU", Plain Language_HU);
    ("HY", Plain Language_HY);
    ("IA", Plain Language_IA);
    ("IE", Plain Language_IE);
    ("IK", Plain Language_IK);
    ("IN", Plain Language_IN);
    ("IS", Plain Language_IS);
    ("IT", Plain Language_IT);
    ("IW", Plain Language_IW);
    ("JA", Plain Language_JA);
    ("JI", Plain Language_JI);
    ("JW", Plain Language_JW);
    ("KA", Plain Language_KA);
    ("KK", Plain Language_KK);
    ("KL", Plain Language_KL);
    ("KM", Plain Language_KM);
    ("KN", Plain Language_KN);
    ("KO", Plain Language_KO);
    ("KS", Plain Language_KS);
    ("KU", Plain Language_KU);
    ("KY", Plain Language_KY);
    ("LA", Plain Language_LA);
    ("LN", Plain Language_LN);
    ("LO", Plain Language_LO);
    ("LT", Plain Language_LT);
    ("LV", Plain Language_LV);
    ("MG", Plain Language_MG);
    ("MI", Plain Language_MI);
    ("MK", Plain Language_MK);
    ("ML", Plain Language_ML);
    ("MN", Plain Language_MN);
    ("MO", Plain Language_MO);
    ("MR", Plain Language_MR);
    ("MS", Plain Language_MS);
    ("MT", Plain Language_MT);
    ("MY", Plain Language_MY);
    ("NA", Plain Language_NA);
    ("NE", Plain Language_NE);
    ("NL", Plain Language_NL);
    ("NO", Plain Language_NO);
    ("OC", Plain Language_OC);
    ("OM", Plain Language_OM);
    ("OR", Plain Language_OR);
    ("PA", Plain Language_PA);
    ("PL", Plain Language_PL);
    ("PS", Plain Language_PS);
    ("PT", Plain Language_PT);
    ("QU", Plain Language_QU);
    ("RM", Plain Language_RM);
    ("RN", Plain Language_RN);
    ("RO", Plain Language_RO);
    ("RU", Plain Language_RU);
    ("RW", Plain Language_RW);
    ("SA", Plain Language_SA);
    ("SD", Plain Language_SD);
    ("SG", Plain Language_SG);
    ("SH", Plain Language_SH);
    ("SI", Plain Language_SI);
    ("SK", Plain Language_SK);
    ("SL", Plain Language_SL);
    ("SM", Plain Language_SM);
    ("SN", Plain Language_SN);
    ("SO", Plain Language_SO);
    ("SQ", Plain Language_SQ);
    ("SR", Plain Language_SR);
    ("SS", Plain Language_SS);
    ("ST", Plain Language_ST);
    ("SU", Plain Language_SU);
    ("SV", Plain Language_SV);
    ("SW", Plain Language_SW);
    ("TA", Plain Language_TA);
    ("TE", Plain Language_TE);
    ("TG", Plain Language_TG);
    ("TH", Plain Language_TH);
    ("TI", Plain Language_TI);
    ("TK", Plain Language_TK);
    ("TL", Plain Language_TL);
    ("TN", Plain Language_TN);
    ("TO", Plain Language_TO);
    ("TR", Plain Language_TR);
    ("TS", Plain Language_TS);
    ("TT", Plain Language_TT);
    ("TW", Plain Language_TW);
    ("UK", Plain Language_UK);
    ("UR", Plain Language_UR);
    ("UZ", Plain Language_UZ);
    ("VI", Plain Language_VI);
    ("VO", Plain Language_VO);
    ("WO", Plain Language_WO);
    ("XH", Plain Language_XH);
    ("YO", Plain Language_YO);
    ("ZH", Plain Language_ZH);
    ("ZU", Plain Language_ZU)])
  (Some [
    Plain "AA";
    Plain "AB";
    Plain "AF";
    Plain "AM";
    Plain "AR";
    Plain "AS";
    Plain "AY";
    Plain "AZ";
    Plain "BA";
    Plain "BE";
    Plain "BG";
    Plain "BH";
    Plain "BI";
    Plain "BN";
    Plain "BO";
    Plain "BR";
    Plain "CA";
    Plain "CO";
    Plain "CS";
    Plain "CY";
    Plain "DA";
    Plain "DE";
    Plain "DZ";
    Plain "EL";
    Plain "EN";
    Plain "EO";
    Plain "ES";
    Plain "ET";
    Plain "EU";
    Plain "FA";
    Plain "FI";
    Plain "FJ";
    Plain "FO";
    Plain "FOR-ALL";
    Plain "FR";
    Plain "FY";
    Plain "GA";
    Plain "GD";
    Plain "GL";
    Plain "GN";
    Plain "GU";
    Plain "HA";
    Plain "HI";
    Plain "HR";
    Plain "HU";
    Plain "HY";
    Plain "IA";
    Plain "IE";
    Plain "IK";
    Plain "IN";
    Plain "IS";
    Plain "IT";
    Plain "IW";
    Plain "JA";
    Plain "JI";
    Plain "JW";
    Plain "KA";
    Plain "KK";
    Plain "KL";
    Plain "KM";
    Plain "KN";
    Plain "KO";
    Plain "KS";
    Plain "KU";
    Plain "KY";
    Plain "LA";
    Plain "LN";
    Plain "LO";
    Plain "LT";
    Plain "LV";
    Plain "MG";
    Plain "MI";
    Plain "MK";
    Plain "ML";
    Plain "MN";
    Plain "MO";
    Plain "MR";
    Plain "MS";
    Plain "MT";
    Plain "MY";
    Plain "NA";
    Plain "NE";
    Plain "NL";
    Plain "NO";
    Plain "OC";
    Plain "OM";
    Plain "OR";
    Plain "PA";
    Plain "PL";
    Plain "PS";
    Plain "PT";
    Plain "QU";
    Plain "RM";
    Plain "RN";
    Plain "RO";
    Plain "RU";
    Plain "RW";
    Plain "SA";
    Plain "SD";
    Plain "SG";
    Plain "SH";
    Plain "SI";
    Plain "SK";
    Plain "SL";
    Plain "SM";
    Plain "SN";
    Plain "SO";
    Plain "SQ";
    Plain "SR";
    Plain "SS";
    Plain "ST";
    Plain "SU";
    Plain "SV";
    Plain "SW";
    Plain "TA";
    Plain "TE";
    Plain "TG";
    Plain "TH";
    Plain "TI";
    Plain "TK";
    Plain "TL";
    Plain "TN";
    Plain "TO";
    Plain "TR";
    Plain "TS";
    Plain "TT";
    Plain "TW";
    Plain "UK";
    Plain "UR";
    Plain "UZ";
    Plain "VI";
    Plain "VO";
    Plain "WO";
    Plain "XH";
    Plain "YO";
    Plain "ZH";
    Plain "ZU"]).

(** ModeAccess, enumeration.py:463-469 *)
Inductive ModeAccess :=
| ModeAccess_ACCESS
| ModeAccess_SWITCH.
(** Values, and the tables at enumeration.py:--- and --- *)
Definition ModeAccess_value (x : ModeAccess) : nat :=
  match x with
  | ModeAccess_ACCESS => 0
  | ModeAccess_SWITCH => 1
  end.
Definition em_ModeAccess : enum_map ModeAccess := mkEnum "ModeAccess" ModeAccess_value
  (None)
  (None).

(** ModeActivationKind, enumeration.py:472-479 *)
Inductive ModeActivationKind :=
| ModeActivationKind_ON_ENTRY
| ModeActivationKind_ON_EXIT
| ModeActivationKind_ON_TRANSITION.
(** Values, and the tables at enumeration.py:1046-1050 and 1454-1458 *)
Definition ModeActivationKind_value (x : ModeActivationKind) : nat :=
  match x with
  | ModeActivationKind_ON_ENTRY => 0
  | ModeActivationKind_ON_EXIT => 1
  | ModeActivationKind_ON_TRANSITION => 2
  end.
Definition em_ModeActivationKind : enum_map ModeActivationKind := mkEnum "ModeActivationKind" ModeActivationKind_value
  (Some [
    ("ON-ENTRY", Plain ModeActivationKind_ON_ENTRY);
    ("ON-EXIT", Plain ModeActivationKind_ON_EXIT);
    ("ON-TRANSITION", Plain ModeActivationKind_ON_TRANSITION)])
  (Some [
    Plain "ON-ENTRY";
    Plain "ON-EXIT";
    Plain "ON-TRANSITION"]).

(** ModeErrorReactionPolicy, enumeration.py:482-488 *)
Inductive ModeErrorReactionPolicy :=
| ModeErrorReactionPolicy_DEFAULT_MODE
| ModeErrorReactionPolicy_LAST_MODE.
(** Values, and the tables at enumeration.py:1051-1054 and 1459-1462 *)
Definition ModeErrorReactionPolicy_value (x : ModeErrorReactionPolicy) : nat :=
  match x with
  | ModeErrorReactionPolicy_DEFAULT_MODE => 0
  | ModeErrorReactionPolicy_LAST_MODE => 1
  end.
Definition em_ModeErrorReactionPolicy : enum_map ModeErrorReactionPolicy := mkEnum "ModeErrorReactionPolicy" ModeErrorReactionPolicy_value
  (Some [
    ("DEFAULT-MODE", Plain ModeErrorReactionPolicy_DEFAULT_MODE);
    ("LAST-MODE", Plain ModeErrorReactionPolicy_LAST_MODE)])
  (Some [
    Plain "DEFAULT-MODE";
    Plain "LAST-MODE"]).

(** Monotony, enumeration.py:491-502 *)
Inductive Monotony :=
| Monotony_DECREASING
| Monotony_INCREASING
| Monotony_MONOTONOUS
| Monotony_NO_MONOTONY
| Monotony_STRICTLY_DECREASING
| Monotony_STRICTLY_INCREASING
| Monotony_STRICT_MONOTONOUS.
(** Values, and the tables at enumeration.py:1055-1063 and 1463-1471 *)
Definition Monotony_value (x : Monotony) : nat :=
  match x with
  | Monotony_DECREASING => 0
  | Monotony_INCREASING => 1
  | Monotony_MONOTONOUS => 2
  | Monotony_NO_MONOTONY => 3
  | Monotony_STRICTLY_DECREASING => 4
  | Monotony_STRICTLY_INCREASING => 5
  | Monotony_STRICT_MONOTONOUS => 6
  end.
Definition em_Monotony : enum_map Monotony := mkEnum "Monotony" Monotony_value
  (Some [
    ("DECREASING", Plain Monotony_DECREASING);
    ("INCREASING", Plain Monotony_INCREASING);
    ("MONOTONOUS", Plain Monotony_MONOTONOUS);
    ("NO-MONOTONY", Plain Monotony_NO_MONOTONY);
    ("STRICTLY-DECREASING", Plain Monotony_STRICTLY_DECREASING);
    ("STRICTLY-INCREASING", Plain Monotony_STRICTLY_INCREASING);
    ("STRICT-MONOTONOUS", Plain Monotony_STRICT_MONOTONOUS)])
  (Some [
    Plain "DECREASING";
    Plain "INCREASING";
    Plain "MONOTONOUS";
    Plain "NO-MONOTONY";
    Plain "STRICTLY-DECREASING";
    Plain "STRICTLY-INCREASING";
    Plain "STRICT-MONOTONOUS"]).

(** PageBreak, enumeration.py:522-528 *)
Inductive PageBreak :=
| PageBreak_BREAK
| PageBreak_NO_BREAK.
(** Values, and the tables at enumeration.py:1064-1067 and 1472-1475 *)
Definition PageBreak_value (x : PageBreak) : nat :=
  match x with
  | PageBreak_BREAK => 0
  | PageBreak_NO_BREAK => 1
  end.
Definition em_PageBreak : enum_map PageBreak := mkEnum "PageBreak" PageBreak_value
  (Some [
    ("BREAK", Plain PageBreak_BREAK);
    ("NO-BREAK", Plain PageBreak_NO_BREAK)])
  (Some [
    Plain "BREAK";
    Plain "NO-BREAK"]).

(** PageWide, enumeration.py:531-537 *)
Inductive PageWide :=
| PageWide_NO_PGWIDE
| PageWide_PGWIDE.
(** Values, and the tables at enumeration.py:1068-1071 and 1476-1479 *)
Definition PageWide_value (x : PageWide) : nat :=
  match x with
  | PageWide_NO_PGWIDE => 0
  | PageWide_PGWIDE => 1
  end.
Definition em_PageWide : enum_map PageWide := mkEnum "PageWide" PageWide_value
  (Some [
    ("NO-PGWIDE", Plain PageWide_NO_PGWIDE);
    ("PGWIDE", Plain PageWide_PGWIDE)])
  (Some [
    Plain "NO-PGWIDE";
    Plain "PGWIDE"]).

(** PortAccess, enumeration.py:540-546 *)
Inductive PortAccess :=
| PortAccess_EXPLICIT
| PortAccess_IMPLICIT.
(** Values, and the tables at enumeration.py:--- and --- *)
Definition PortAccess_value (x : PortAccess) : nat :=
  match x with
  | PortAccess_EXPLICIT => 0
  | PortAccess_IMPLICIT => 1
  end.
Definition em_PortAccess : enum_map PortAccess := mkEnum "PortAccess" PortAccess_value
  (None)
  (None).

(** ReadResult, enumeration.py:549-556 *)
Inductive ReadResult :=
| ReadResult_BY_ARGUMENT
| ReadResult_BY_VALUE.
(** Values, and the tables at enumeration.py:--- and --- *)
Definition ReadResult_value (x : ReadResult) : nat :=
  match x with
  | ReadResult_BY_ARGUMENT => 0
  | ReadResult_BY_VALUE => 1
  end.
Definition em_ReadResult : enum_map ReadResult := mkEnum "ReadResult" ReadResult_value
  (None)
  (None).

(** ReentrancyLevel, enumeration.py:559-566 *)
Inductive ReentrancyLevel :=
| ReentrancyLevel_MULTICORE_REENTRANT
| ReentrancyLevel_NON_REENTRANT
| ReentrancyLevel_SINGLE_CORE_REENTRANT.
(** Values, and the tables at enumeration.py:1072-1076 and 1480-1484 *)
Definition ReentrancyLevel_value (x : ReentrancyLevel) : nat :=
  match x with
  | ReentrancyLevel_MULTICORE_REENTRANT => 0
  | ReentrancyLevel_NON_REENTRANT => 1
  | ReentrancyLevel_SINGLE_CORE_REENTRANT => 2
  end.
Definition em_ReentrancyLevel : enum_map ReentrancyLevel := mkEnum "ReentrancyLevel" ReentrancyLevel_value
  (Some [
    ("MULTICORE-REENTRANT", Plain ReentrancyLevel_MULTICORE_REENTRANT);
    ("NON-REENTRANT", Plain ReentrancyLevel_NON_REENTRANT);
    ("SINGLE-CORE-REENTRANT", Plain ReentrancyLevel_SINGLE_CORE_REENTRANT)])
  (Some [
    Plain "MULTICORE-REENTRANT";
    Plain "NON-REENTRANT";
    Plain "SINGLE-CORE-REENTRANT"]).

(** RteApiReturnValueProvision, enumeration.py:569-575 *)
Inductive RteApiReturnValueProvision :=
| RteApiReturnValueProvision_RETURN_VALUE_PROVIDED
| RteApiReturnValueProvision_NO_RETURN_VALUE_PROVIDED.
(** Values, and the tables at enumeration.py:1077-1080 and 1485-1488 *)
Definition RteApiReturnValueProvision_value (x : RteApiReturnValueProvision) : nat :=
  match x with
  | RteApiReturnValueProvision_RETURN_VALUE_PROVIDED => 0
  | RteApiReturnValueProvision_NO_RETURN_VALUE_PROVIDED => 1
  end.
Definition em_RteApiReturnValueProvision : enum_map RteApiReturnValueProvision := mkEnum "RteApiReturnValueProvision" RteApiReturnValueProvision_value
  (Some [
    ("RETURN-VALUE-PROVIDED", Plain RteApiReturnValueProvision_RETURN_VALUE_PROVIDED);
    ("NO-RETURN-VALUE-PROVIDED", Plain RteApiReturnValueProvision_NO_RETURN_VALUE_PROVIDED)])
  (Some [
    Plain "RETURN-VALUE-PROVIDED";
    Plain "NO-RETURN-VALUE-PROVIDED"]).

(** ScaleConstraintValidity, enumeration.py:578-586 *)
Inductive ScaleConstraintValidity :=
| ScaleConstraintValidity_NOT_AVAILABLE
| ScaleConstraintValidity_NOT_DEFINED
| ScaleConstraintValidity_NOT_VALID
| ScaleConstraintValidity_VALID.
(** Values, and the tables at enumeration.py:1081-1086 and 1489-1494 *)
Definition ScaleConstraintValidity_value (x : ScaleConstraintValidity) : nat :=
  match x with
  | ScaleConstraintValidity_NOT_AVAILABLE => 0
  | ScaleConstraintValidity_NOT_DEFINED => 1
  | ScaleConstraintValidity_NOT_VALID => 2
  | ScaleConstraintValidity_VALID => 3
  end.
Definition em_ScaleConstraintValidity : enum_map ScaleConstraintValidity := mkEnum "ScaleConstraintValidity" ScaleConstraintValidity_value
  (Some [
    ("NOT-AVAILABLE", Plain ScaleConstraintValidity_NOT_AVAILABLE);
    ("NOT-DEFINED", Plain ScaleConstraintValidity_NOT_DEFINED);
    ("NOT-VALID", Plain ScaleConstraintValidity_NOT_VALID);
    ("VALID", Plain ScaleConstraintValidity_VALID)])
  (Some [
    Plain "NOT-AVAILABLE";
    Plain "NOT-DEFINED";
    Plain "NOT-VALID";
    Plain "VALID"]).

(** ServerArgImplPolicy, enumeration.py:589-596 *)
Inductive ServerArgImplPolicy :=
| ServerArgImplPolicy_USE_ARGUMENT_TYPE
| ServerArgImplPolicy_USE_ARRAY_BASED_TYPE
| ServerArgImplPolicy_USE_VOID.
(** Values, and the tables at enumeration.py:1087-1091 and 1495-1499 *)
Definition ServerArgImplPolicy_value (x : ServerArgImplPolicy) : nat :=
  match x with
  | ServerArgImplPolicy_USE_ARGUMENT_TYPE => 0
  | ServerArgImplPolicy_USE_ARRAY_BASED_TYPE => 1
  | ServerArgImplPolicy_USE_VOID => 2
  end.
Definition em_ServerArgImplPolicy : enum_map ServerArgImplPolicy := mkEnum "ServerArgImplPolicy" ServerArgImplPolicy_value
  (Some [
    ("USE-ARGUMENT-TYPE", Plain ServerArgImplPolicy_USE_ARGUMENT_TYPE);
    ("USE-ARRAY-BASE-TYPE", Plain ServerArgImplPolicy_USE_ARRAY_BASED_TYPE);
    ("USE-VOID", Plain ServerArgImplPolicy_USE_VOID)])
  (Some [
    Plain "USE-ARGUMENT-TYPE";
    Plain "USE-ARRAY-BASE-TYPE";
    Plain "USE-VOID"]).

(** ServiceKind, enumeration.py:599-628 *)
Inductive ServiceKind :=
| ServiceKind_ANY_STANDARDIZED
| ServiceKind_BASIC_SOFTWARE_MODE_MANAGER
| ServiceKind_COM_MANAGER
| ServiceKind_CRYPTO_KEY_MANAGEMENT
| ServiceKind_CRYPTO_SERVICE_MANAGER
| ServiceKind_DEFAULT_ERROR_TRACER
| ServiceKind_DEVELOPMENT_ERROR_TRACER
| ServiceKind_DIAGNOSTIC_COMMUNICATION_MANAGER
| ServiceKind_DIAGNOSTIC_EVENT_MANAGER
| ServiceKind_DIAGNOSTIC_LOG_AND_TRACE
| ServiceKind_ECU_MANAGER
| ServiceKind_ERROR_TRACER
| ServiceKind_FUNCTION_INHIBITION_MANAGER
| ServiceKind_HARDWARE_TEST_MANAGER
| ServiceKind_INTRUSION_DETECTION_SECURITY_MANAGEMENT
| ServiceKind_J1939_DCM
| ServiceKind_J1939_REQUEST_MANAGER
| ServiceKind_NON_VOLATILE_RAM_MANAGER
| ServiceKind_OPERATING_SYSTEM
| ServiceKind_SECURE_ON_BOARD_COMMUNICATION
| ServiceKind_SYNC_BASE_TIME_MANAGER
| ServiceKind_V2X_FACILITIES
| ServiceKind_V2X_MANAGEMENT
| ServiceKind_VENDOR_SPECIFIC
| ServiceKind_WATCH_DOG_MANAGER.
(** Values, and the tables at enumeration.py:--- and --- *)
Definition ServiceKind_value (x : ServiceKind) : nat :=
  match x with
  | ServiceKind_ANY_STANDARDIZED => 0
  | ServiceKind_BASIC_SOFTWARE_MODE_MANAGER => 1
  | ServiceKind_COM_MANAGER => 2
  | ServiceKind_CRYPTO_KEY_MANAGEMENT => 23
  | ServiceKind_CRYPTO_SERVICE_MANAGER => 3
  | ServiceKind_DEFAULT_ERROR_TRACER => 4
  | ServiceKind_DEVELOPMENT_ERROR_TRACER => 5
  | ServiceKind_DIAGNOSTIC_COMMUNICATION_MANAGER => 6
  | ServiceKind_DIAGNOSTIC_EVENT_MANAGER => 7
  | ServiceKind_DIAGNOSTIC_LOG_AND_TRACE => 8
  | ServiceKind_ECU_MANAGER => 9
  | ServiceKind_ERROR_TRACER => 18
  | ServiceKind_FUNCTION_INHIBITION_MANAGER => 10
  | ServiceKind_HARDWARE_TEST_MANAGER => 19
  | ServiceKind_INTRUSION_DETECTION_SECURITY_MANAGEMENT => 24
  | ServiceKind_J1939_DCM => 22
  | ServiceKind_J1939_REQUEST_MANAGER => 11
  | ServiceKind_NON_VOLATILE_RAM_MANAGER => 12
  | ServiceKind_OPERATING_SYSTEM => 13
  | ServiceKind_SECURE_ON_BOARD_COMMUNICATION => 14
  | ServiceKind_SYNC_BASE_TIME_MANAGER => 15
  | ServiceKind_V2X_FACILITIES => 20
  | ServiceKind_V2X_MANAGEMENT => 21
  | ServiceKind_VENDOR_SPECIFIC => 16
  | ServiceKind_WATCH_DOG_MANAGER => 17
  end.
Definition em_ServiceKind : enum_map ServiceKind := mkEnum "ServiceKind" ServiceKind_value
  (None)
  (None).

(** SupportBufferLocking, enumeration.py:631-637 *)
Inductive SupportBufferLocking :=
| SupportBufferLocking_DOES_NOT_SUPPORT_BUFFER_LOCKING
| SupportBufferLocking_SUPPORTS_BUFFER_LOCKING.
(** Values, and the tables at enumeration.py:1092-1095 and 1500-1503 *)
Definition SupportBufferLocking_value (x : SupportBufferLocking) : nat :=
  match x with
  | SupportBufferLocking_DOES_NOT_SUPPORT_BUFFER_LOCKING => 0
  | SupportBufferLocking_SUPPORTS_BUFFER_LOCKING => 1
  end.
Definition em_SupportBufferLocking : enum_map SupportBufferLocking := mkEnum "SupportBufferLocking" SupportBufferLocking_value
  (Some [
    ("DOES-NOT-SUPPORT-BUFFER-LOCKING", Plain SupportBufferLocking_DOES_NOT_SUPPORT_BUFFER_LOCKING);
    ("SUPPORTS-BUFFER-LOCKING", Plain SupportBufferLocking_SUPPORTS_BUFFER_LOCKING)])
  (Some [
    Plain "DOES-NOT-SUPPORT-BUFFER-LOCKING";
    Plain "SUPPORTS-BUFFER-LOCKING"]).

(** SwCalibrationAccess, enumeration.py:640-647 *)
Inductive SwCalibrationAccess :=
| SwCalibrationAccess_NOT_ACCESSIBLE
| SwCalibrationAccess_READ_ONLY
| SwCalibrationAccess_READ_WRITE.
(** Values, and the tables at enumeration.py:1096-1100 and 1504-1508 *)
Definition SwCalibrationAccess_value (x : SwCalibrationAccess) : nat :=
  match x with
  | SwCalibrationAccess_NOT_ACCESSIBLE => 0
  | SwCalibrationAccess_READ_ONLY => 1
  | SwCalibrationAccess_READ_WRITE => 2
  end.
Definition em_SwCalibrationAccess : enum_map SwCalibrationAccess := mkEnum "SwCalibrationAccess" SwCalibrationAccess_value
  (Some [
    ("NOT-ACCESSIBLE", Plain SwCalibrationAccess_NOT_ACCESSIBLE);
    ("READ-ONLY", Plain SwCalibrationAccess_READ_ONLY);
    ("READ-WRITE", Plain SwCalibrationAccess_READ_WRITE)])
  (Some [
    Plain "NOT-ACCESSIBLE";
    Plain "READ-ONLY";
    Plain "READ-WRITE"]).

(** SwImplPolicy, enumeration.py:650-659 *)
Inductive SwImplPolicy :=
| SwImplPolicy_CONST
| SwImplPolicy_FIXED
| SwImplPolicy_MEASUREMENT_POINT
| SwImplPolicy_QUEUED
| SwImplPolicy_STANDARD.
(** Values, and the tables at enumeration.py:1101-1107 and 1509-1515 *)
Definition SwImplPolicy_value (x : SwImplPolicy) : nat :=
  match x with
  | SwImplPolicy_CONST => 0
  | SwImplPolicy_FIXED => 1
  | SwImplPolicy_MEASUREMENT_POINT => 2
  | SwImplPolicy_QUEUED => 3
  | SwImplPolicy_STANDARD => 4
  end.
Definition em_SwImplPolicy : enum_map SwImplPolicy := mkEnum "SwImplPolicy" SwImplPolicy_value
  (Some [
    ("CONST", Plain SwImplPolicy_CONST);
    ("FIXED", Plain SwImplPolicy_FIXED);
    ("MEASUREMENT-POINT", Plain SwImplPolicy_MEASUREMENT_POINT);
    ("QUEUED", Plain SwImplPolicy_QUEUED);
    ("STANDARD", Plain SwImplPolicy_STANDARD)])
  (Some [
    Plain "CONST";
    Plain "FIXED";
    Plain "MEASUREMENT-POINT";
    Plain "QUEUED";
    Plain "STANDARD"]).

(** TransmissionMode, enumeration.py:662-669 *)
Inductive TransmissionMode :=
| TransmissionMode_CYCLIC
| TransmissionMode_CYCLIC_AND_ON_CHANGE
| TransmissionMode_TRIGGERED.
(** Values, and the tables at enumeration.py:1108-1112 and 1516-1520 *)
Definition TransmissionMode_value (x : TransmissionMode) : nat :=
  match x with
  | TransmissionMode_CYCLIC => 0
  | TransmissionMode_CYCLIC_AND_ON_CHANGE => 1
  | TransmissionMode_TRIGGERED => 2
  end.
Definition em_TransmissionMode : enum_map TransmissionMode := mkEnum "TransmissionMode" TransmissionMode_value
  (Some [
    ("CYCLIC", Plain TransmissionMode_CYCLIC);
    ("CYCLIC-AND-ON-CHANGE", Plain TransmissionMode_CYCLIC_AND_ON_CHANGE);
    ("TRIGGERED", Plain TransmissionMode_TRIGGERED)])
  (Some [
    Plain "CYCLIC";
    Plain "CYCLIC-AND-ON-CHANGE";
    Plain "TRIGGERED"]).

(** ValueFormat, enumeration.py:672-683 *)
Inductive ValueFormat :=
| ValueFormat_DEFAULT
| ValueFormat_DECIMAL
| ValueFormat_HEXADECIMAL
| ValueFormat_BINARY
| ValueFormat_SCIENTIFIC.
(** Values, and the tables at enumeration.py:--- and --- *)
Definition ValueFormat_value (x : ValueFormat) : nat :=
  match x with
  | ValueFormat_DEFAULT => 0
  | ValueFormat_DECIMAL => 1
  | ValueFormat_HEXADECIMAL => 2
  | ValueFormat_BINARY => 3
  | ValueFormat_SCIENTIFIC => 4
  end.
Definition em_ValueFormat : enum_map ValueFormat := mkEnum "ValueFormat" ValueFormat_value
  (None)
  (None).

(** VariableAccessScope, enumeration.py:686-693 *)
Inductive VariableAccessScope :=
| VariableAccessScope_COMMUNICATION_INTER_ECU
| VariableAccessScope_COMMUNICATION_INTRA_PARTITION
| VariableAccessScope_INTER_PARTITION_INTRA_ECU.
(** Values, and the tables at enumeration.py:1113-1117 and 1521-1525 *)
Definition VariableAccessScope_value (x : VariableAccessScope) : nat :=
  match x with
  | VariableAccessScope_COMMUNICATION_INTER_ECU => 0
  | VariableAccessScope_COMMUNICATION_INTRA_PARTITION => 1
  | VariableAccessScope_INTER_PARTITION_INTRA_ECU => 2
  end.
Definition em_VariableAccessScope : enum_map VariableAccessScope := mkEnum "VariableAccessScope" VariableAccessScope_value
  (Some [
    ("COMMUNICATION-INTER-ECU", Plain VariableAccessScope_COMMUNICATION_INTER_ECU);
    ("COMMUNICATION-INTRA-PARTITION", Plain VariableAccessScope_COMMUNICATION_INTRA_PARTITION);
    ("INTER-PARTITION-INTRA-ECU", Plain VariableAccessScope_INTER_PARTITION_INTRA_ECU)])
  (Some [
    Plain "COMMUNICATION-INTER-ECU";
    Plain "COMMUNICATION-INTRA-PARTITION";
    Plain "INTER-PARTITION-INTRA-ECU"]).

(** Any enumeration. *)
Inductive some_enum := SomeEnum (A : Type) (m : enum_map A).
(** All Enum classes of the module (except PackageRole). *)
Definition all_enums : list some_enum := [
  SomeEnum _ em_ArgumentDirection;
  SomeEnum _ em_ArrayImplPolicy;
  SomeEnum _ em_ArraySizeHandling;
  SomeEnum _ em_ArraySizeSemantics;
  SomeEnum _ em_ByteOrder;
  SomeEnum _ em_CalibrationAxisCategory;
  SomeEnum _ em_CallPoint;
  SomeEnum _ em_CompuScaleContent;
  SomeEnum _ em_DataFilterType;
  SomeEnum _ em_DataTransformationErrorHandling;
  SomeEnum _ em_DataTransformationStatusForwarding;
  SomeEnum _ em_DisplayPresentation;
  SomeEnum _ em_EmphasisType;
  SomeEnum _ em_EmphasisFont;
  SomeEnum _ em_Float;
  SomeEnum _ em_HandleInvalid;
  SomeEnum _ em_HandleOutOfRange;
  SomeEnum _ em_HandleOutOfRangeStatus;
  SomeEnum _ em_HandleTimeout;
  SomeEnum _ em_IdentifiableSubTypes;
  SomeEnum _ em_IntervalType;
  SomeEnum _ em_KeepWithPrevious;
  SomeEnum _ em_Language;
  SomeEnum _ em_ModeAccess;
  SomeEnum _ em_ModeActivationKind;
  SomeEnum _ em_ModeErrorReactionPolicy;
  SomeEnum _ em_Monotony;
  SomeEnum _ em_PageBreak;
  SomeEnum _ em_PageWide;
  SomeEnum _ em_PortAccess;
  SomeEnum _ em_ReadResult;
  SomeEnum _ em_ReentrancyLevel;
  SomeEnum _ em_RteApiReturnValueProvision;
  SomeEnum _ em_ScaleConstraintValidity;
  SomeEnum _ em_ServerArgImplPolicy;
  SomeEnum _ em_ServiceKind;
  SomeEnum _ em_SupportBufferLocking;
  SomeEnum _ em_SwCalibrationAccess;
  SomeEnum _ em_SwImplPolicy;
  SomeEnum _ em_TransmissionMode;
  SomeEnum _ em_ValueFormat;
  SomeEnum _ em_VariableAccessScope].
