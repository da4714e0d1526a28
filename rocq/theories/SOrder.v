(** Which documents differ only in what has no meaning: the order of the properties of an element, elements
    nobody reads, the order of attributes, and the white space between elements. *)
From Verif Require Import Base MXml.
Open Scope list_scope.

(** ** The vocabulary of the format *)
(** Elements whose children are a sequence: collections of different kinds of elements, text with inline
    elements, elements that stand for their first child. *)
Definition sequence_tags : list string :=
  ["ANNOTATION-TEXT"; "BR"; "COMPONENTS"; "CONNECTORS"; "DISPLAY-NAME"; "E"; "ELEMENTS"; "EVENTS"; "FIELDS"; "IE";
   "INIT-VALUE"; "INNER-PORT-IREF"; "INTRODUCTION"; "L-1"; "L-2"; "L-4"; "L-5"; "MODE-GROUP-IREF"; "PORTS";
   "PROVIDED-COM-SPECS"; "RAM-BLOCK-INIT-VALUE"; "REQUIRED-COM-SPECS"; "ROM-BLOCK-INIT-VALUE"; "SDGS";
   "SERVER-CALL-POINTS"; "SUB"; "SUP"; "SW-VALUES-PHYS"; "TIMEOUT-SUBSTITUTION-VALUE"; "TT"; "UNIT-DISPLAY-NAME";
   "VALUE"; "VALUE-SPEC"; "VG"].
(** Elements that hold a text. *)
Definition text_tags : list string :=
  ["ACTIVATION"; "ADDITIONAL-NATIVE-TYPE-QUALIFIER"; "ALIVE-TIMEOUT"; "ANNOTATION-ORIGIN";
   "APPLICATION-DATA-TYPE-REF"; "ARRAY-IMPL-POLICY"; "ARRAY-SIZE"; "ARRAY-SIZE-HANDLING"; "ARRAY-SIZE-SEMANTICS";
   "ASYNCHRONOUS-SERVER-CALL-POINT-REF"; "BASE-TYPE-ENCODING"; "BASE-TYPE-REF"; "BASE-TYPE-SIZE"; "BEHAVIOR-REF";
   "BIT-POSITION"; "BR"; "BYTE-ORDER"; "CALLED-FROM-WITHIN-EXCLUSIVE-AREA-REF"; "CAN-BE-INVOKED-CONCURRENTLY";
   "CAN-ENTER-EXCLUSIVE-AREA-REF"; "CATEGORY"; "CLEAR-FROM-VALID-TO-INVALID"; "COMPU-METHOD-REF"; "CONSTANT-REF";
   "CONSTR-LEVEL"; "CONTEXT-COMPONENT-REF"; "CONTEXT-DATA-PROTOTYPE-REF";
   "CONTEXT-MODE-DECLARATION-GROUP-PROTOTYPE-REF"; "CONTEXT-P-PORT-REF"; "CONTEXT-PORT-REF"; "CONTEXT-R-PORT-REF";
   "DATA-CONSTR-REF"; "DATA-ELEMENT-REF"; "DATA-FILTER-TYPE"; "DATA-TYPE-MAPPING-REF"; "DATA-UPDATE-PERIOD";
   "DEFAULT-MODE-REF"; "DEFAULT-PATTERN"; "DIAG-ARG-INTEGRITY"; "DIRECTION"; "DISABLE-END-TO-END-CHECK";
   "DISABLE-END-TO-END-STATE-MACHINE"; "DISPLAY-FORMAT"; "DISPLAY-NAME"; "DISPLAY-PRESENTATION";
   "DYNAMIC-ARRAY-SIZE-PROFILE"; "E"; "E-2-E-PROFILE-COMPATIBILITY-PROPS-REF"; "ENABLE-TAKE-ADDRESS";
   "ENABLE-UPDATE"; "END-TO-END-CALL-RESPONSE-TIMEOUT"; "ENHANCED-MODE-API"; "ENTERED-MODE-REF"; "ERROR-CODE";
   "ERROR-HANDLING"; "ERROR-REACTION-POLICY"; "EVENT-SOURCE-REF"; "EXCLUSIVE-AREA-NESTING-ORDER-REF";
   "EXCLUSIVE-AREA-REF"; "EXITED-MODE-REF"; "FACTOR-SI-TO-UNIT"; "FIRE-AND-FORGET"; "FUNCTION-POINTER-SIGNATURE-REF";
   "HANDLE-DATA-STATUS"; "HANDLE-INVALID"; "HANDLE-NEVER-RECEIVED"; "HANDLE-OUT-OF-RANGE";
   "HANDLE-OUT-OF-RANGE-STATUS"; "HANDLE-TIMEOUT-TYPE"; "IE"; "IMPLEMENTATION-DATA-TYPE-REF"; "INDEX-DATA-TYPE-REF";
   "INDIRECT-API"; "INITIAL-MODE-REF"; "IS-OPTIONAL"; "IS-SERVICE"; "IS-STRUCT-WITH-OPTIONAL-ELEMENT"; "L-1"; "L-2";
   "L-4"; "L-5"; "LOCAL-PARAMETER-REF"; "LOCAL-VARIABLE-REF"; "LOWER-LIMIT"; "MASK"; "MAX"; "MAX-BASE-TYPE-SIZE";
   "MAX-DELTA-COUNTER"; "MAX-DELTA-COUNTER-INIT"; "MAX-DIFF"; "MAX-ERROR-STATE-INIT"; "MAX-ERROR-STATE-INVALID";
   "MAX-ERROR-STATE-VALID"; "MAX-GRADIENT"; "MAX-NO-NEW-OR-REPEATED-DATA"; "MAX-NUMBER-OF-ELEMENTS";
   "MAY-BE-UNCONNECTED"; "MEM-ALIGNMENT"; "MIN"; "MIN-OK-STATE-INIT"; "MIN-OK-STATE-INVALID"; "MIN-OK-STATE-VALID";
   "MINIMUM-SEND-INTERVAL"; "MINIMUM-START-INTERVAL"; "MODE-GROUP-REF"; "MONOTONY"; "NATIVE-DECLARATION";
   "NUMBER-OF-BITS"; "OFFSET"; "OFFSET-SI-TO-UNIT"; "ON-TRANSITION-VALUE"; "OPERATION-REF"; "OUTER-PORT-REF";
   "PARAMETER-REF"; "PERIOD"; "PHYSICAL-DIMENSION-REF"; "PORT-PROTOTYPE-REF"; "PORT-REF"; "POSSIBLE-ERROR-REF";
   "PROVIDED-INTERFACE-TREF"; "PROVIDED-OUTER-PORT-REF"; "PROVIDED-REQUIRED-INTERFACE-TREF"; "QUEUE-LENGTH";
   "REENTRANCY-LEVEL"; "REQUIRED-INTERFACE-TREF"; "REQUIRED-OUTER-PORT-REF"; "REQUIRED-RTE-VENDOR";
   "RETURN-VALUE-PROVISION"; "ROOT-PARAMETER-DATA-PROTOTYPE-REF"; "ROOT-VARIABLE-DATA-PROTOTYPE-REF";
   "RUNS-INSIDE-EXCLUSIVE-AREA-REF"; "SCOPE"; "SD"; "SERVER-ARGUMENT-IMPL-POLICY"; "SHORT-LABEL"; "SHORT-NAME";
   "START-ON-EVENT-REF"; "STEP-SIZE"; "SUB"; "SUP"; "SUPPORT-BUFFER-LOCKING"; "SUPPORTS-ASYNCHRONOUS-MODE-SWITCH";
   "SW-ADDR-METHOD-REF"; "SW-ALIGNMENT"; "SW-AXIS-INDEX"; "SW-CALIBRATION-ACCESS"; "SW-FILL-CHARACTER";
   "SW-IMPL-POLICY"; "SW-INTENDED-RESOLUTION"; "SW-INTERPOLATION-METHOD"; "SW-IS-VIRTUAL"; "SW-MAX-TEXT-SIZE";
   "SYMBOL"; "SYNC-COUNTER-INIT"; "TARGET-CATEGORY"; "TARGET-DATA-ELEMENT-REF"; "TARGET-DATA-PROTOTYPE-REF";
   "TARGET-MODE-DECLARATION-REF"; "TARGET-MODE-GROUP-REF"; "TARGET-P-PORT-REF"; "TARGET-PROVIDED-OPERATION-REF";
   "TARGET-R-PORT-REF"; "TARGET-REQUIRED-OPERATION-REF"; "TARGET-TRIGGER-REF"; "TIMEOUT";
   "TRANSFORMER-STATUS-FORWARDING"; "TRANSIT-TO-INVALID-EXTENDED"; "TRANSMISSION-MODE"; "TRIGGER-REF"; "TT";
   "TYPE-EMITTER"; "TYPE-TREF"; "UNIT-DISPLAY-NAME"; "UNIT-REF"; "UPPER-LIMIT"; "USES-END-TO-END-PROTECTION"; "V";
   "VALUE"; "VALUE-TYPE-TREF"; "VARIABLE-REF"; "VT"; "WINDOW-SIZE"; "WINDOW-SIZE-INIT"; "WINDOW-SIZE-INVALID";
   "WINDOW-SIZE-VALID"; "X"].
(** Every element that means something somewhere. *)
Definition known_tags : list string :=
  ["ACCESSED-PARAMETER"; "ACCESSED-VARIABLE"; "ACTIVATION"; "ACTIVATION-REASONS"; "ADDITIONAL-NATIVE-TYPE-QUALIFIER";
   "ADMIN-DATA"; "ALIVE-TIMEOUT"; "ANNOTATION"; "ANNOTATION-ORIGIN"; "ANNOTATION-TEXT"; "ANNOTATIONS";
   "APPLICATION-ARRAY-DATA-TYPE"; "APPLICATION-DATA-TYPE-REF"; "APPLICATION-ERROR";
   "APPLICATION-PRIMITIVE-DATA-TYPE"; "APPLICATION-RECORD-DATA-TYPE"; "APPLICATION-RECORD-ELEMENT";
   "APPLICATION-SW-COMPONENT-TYPE"; "APPLICATION-VALUE-SPECIFICATION"; "AR-PACKAGE"; "AR-PACKAGES";
   "ARGUMENT-DATA-PROTOTYPE"; "ARGUMENTS"; "ARRAY-IMPL-POLICY"; "ARRAY-SIZE"; "ARRAY-SIZE-HANDLING";
   "ARRAY-SIZE-SEMANTICS"; "ARRAY-VALUE-SPECIFICATION"; "ARTIFACT-DESCRIPTORS"; "ASSEMBLY-SW-CONNECTOR";
   "ASYNCHRONOUS-SERVER-CALL-POINT"; "ASYNCHRONOUS-SERVER-CALL-POINT-REF"; "ASYNCHRONOUS-SERVER-CALL-RESULT-POINT";
   "ASYNCHRONOUS-SERVER-CALL-RESULT-POINTS"; "ASYNCHRONOUS-SERVER-CALL-RETURNS-EVENT"; "AUTOSAR-ENGINEERING-OBJECT";
   "AUTOSAR-PARAMETER-IREF"; "AUTOSAR-VARIABLE-IN-IMPL-DATATYPE"; "AUTOSAR-VARIABLE-IREF"; "BACKGROUND-EVENT";
   "BASE-TYPE-ENCODING"; "BASE-TYPE-REF"; "BASE-TYPE-SIZE"; "BEHAVIOR-REF"; "BIT-POSITION"; "BR"; "BYTE-ORDER";
   "CALLED-FROM-WITHIN-EXCLUSIVE-AREA-REF"; "CAN-BE-INVOKED-CONCURRENTLY"; "CAN-ENTER-EXCLUSIVE-AREA-REF";
   "CAN-ENTER-EXCLUSIVE-AREA-REFS"; "CAN-ENTERS"; "CATEGORY"; "CLEAR-FROM-VALID-TO-INVALID"; "CLIENT-COM-SPEC";
   "CLIENT-SERVER-INTERFACE"; "CLIENT-SERVER-OPERATION"; "CODE"; "CODE-DESCRIPTORS"; "COMMUNICATION-BUFFER-LOCKING";
   "COMPONENTS"; "COMPOSITION-SW-COMPONENT-TYPE"; "COMPU-CONST"; "COMPU-DEFAULT-VALUE"; "COMPU-DENOMINATOR";
   "COMPU-INTERNAL-TO-PHYS"; "COMPU-INVERSE-VALUE"; "COMPU-METHOD"; "COMPU-METHOD-REF"; "COMPU-NUMERATOR";
   "COMPU-PHYS-TO-INTERNAL"; "COMPU-RATIONAL-COEFFS"; "COMPU-SCALE"; "COMPU-SCALES"; "CONNECTORS"; "CONSTANT-REF";
   "CONSTANT-REFERENCE"; "CONSTANT-SPECIFICATION"; "CONSTR-LEVEL"; "CONTEXT-COMPONENT-REF";
   "CONTEXT-DATA-PROTOTYPE-REF"; "CONTEXT-DATA-PROTOTYPE-REFS"; "CONTEXT-MODE-DECLARATION-GROUP-PROTOTYPE-REF";
   "CONTEXT-P-PORT-REF"; "CONTEXT-PORT-REF"; "CONTEXT-R-PORT-REF"; "DATA-CONSTR"; "DATA-CONSTR-REF";
   "DATA-CONSTR-RULE"; "DATA-CONSTR-RULES"; "DATA-ELEMENT-REF"; "DATA-ELEMENTS"; "DATA-FILTER"; "DATA-FILTER-TYPE";
   "DATA-IREF"; "DATA-READ-ACCESSS"; "DATA-RECEIVE-ERROR-EVENT"; "DATA-RECEIVE-POINT-BY-ARGUMENTS";
   "DATA-RECEIVE-POINT-BY-VALUES"; "DATA-RECEIVED-EVENT"; "DATA-SEND-COMPLETED-EVENT"; "DATA-SEND-POINTS";
   "DATA-TYPE-MAP"; "DATA-TYPE-MAPPING-REF"; "DATA-TYPE-MAPPING-REFS"; "DATA-TYPE-MAPPING-SET"; "DATA-TYPE-MAPS";
   "DATA-UPDATE-PERIOD"; "DATA-WRITE-ACCESSS"; "DATA-WRITE-COMPLETED-EVENT"; "DEFAULT-MODE-REF"; "DEFAULT-PATTERN";
   "DELEGATION-SW-CONNECTOR"; "DESC"; "DIAG-ARG-INTEGRITY"; "DIRECTION"; "DISABLE-END-TO-END-CHECK";
   "DISABLE-END-TO-END-STATE-MACHINE"; "DISABLED-MODE-IREF"; "DISABLED-MODE-IREFS"; "DISPLAY-FORMAT"; "DISPLAY-NAME";
   "DISPLAY-PRESENTATION"; "DYNAMIC-ARRAY-SIZE-PROFILE"; "E"; "E-2-E-PROFILE-COMPATIBILITY-PROPS";
   "E-2-E-PROFILE-COMPATIBILITY-PROPS-REF"; "ELEMENT"; "ELEMENTS"; "ENABLE-TAKE-ADDRESS"; "ENABLE-UPDATE";
   "END-TO-END-CALL-RESPONSE-TIMEOUT"; "END-TO-END-TRANSFORMATION-COM-SPEC-PROPS"; "ENHANCED-MODE-API";
   "ENTERED-MODE-REF"; "ERROR-CODE"; "ERROR-HANDLING"; "ERROR-REACTION-POLICY"; "EVENT-SOURCE-REF"; "EVENTS";
   "EXCLUSIVE-AREA"; "EXCLUSIVE-AREA-NESTING-ORDER-REF"; "EXCLUSIVE-AREA-NESTING-ORDER-REFS"; "EXCLUSIVE-AREA-REF";
   "EXCLUSIVE-AREA-REF-CONDITIONAL"; "EXCLUSIVE-AREAS"; "EXECUTABLE-ENTITY-ACTIVATION-REASON"; "EXITED-MODE-REF";
   "EXTERNAL-TRIGGER-OCCURRED-EVENT"; "EXTERNAL-TRIGGERING-POINT"; "EXTERNAL-TRIGGERING-POINTS"; "FACTOR-SI-TO-UNIT";
   "FIELDS"; "FILTER"; "FIRE-AND-FORGET"; "FUNCTION-POINTER-SIGNATURE-REF"; "HANDLE-DATA-STATUS"; "HANDLE-INVALID";
   "HANDLE-NEVER-RECEIVED"; "HANDLE-OUT-OF-RANGE"; "HANDLE-OUT-OF-RANGE-STATUS"; "HANDLE-TIMEOUT-TYPE"; "IDENT";
   "IE"; "IMPLEMENTATION-DATA-TYPE"; "IMPLEMENTATION-DATA-TYPE-ELEMENT"; "IMPLEMENTATION-DATA-TYPE-REF";
   "INDEX-DATA-TYPE-REF"; "INDIRECT-API"; "INIT-EVENT"; "INIT-VALUE"; "INITIAL-MODE-REF"; "INNER-PORT-IREF";
   "INTERNAL-BEHAVIORS"; "INTERNAL-CONSTRS"; "INTERNAL-TRIGGER-OCCURRED-EVENT"; "INTERNAL-TRIGGERING-POINT";
   "INTERNAL-TRIGGERING-POINTS"; "INTRODUCTION"; "INVALIDATION-POLICY"; "INVALIDATION-POLICYS"; "IS-OPTIONAL";
   "IS-SERVICE"; "IS-STRUCT-WITH-OPTIONAL-ELEMENT"; "L-1"; "L-2"; "L-4"; "L-5"; "LABEL"; "LOCAL-PARAMETER-REF";
   "LOCAL-VARIABLE-REF"; "LONG-NAME"; "LOWER-LIMIT"; "MASK"; "MAX"; "MAX-BASE-TYPE-SIZE"; "MAX-DELTA-COUNTER";
   "MAX-DELTA-COUNTER-INIT"; "MAX-DIFF"; "MAX-ERROR-STATE-INIT"; "MAX-ERROR-STATE-INVALID"; "MAX-ERROR-STATE-VALID";
   "MAX-GRADIENT"; "MAX-NO-NEW-OR-REPEATED-DATA"; "MAX-NUMBER-OF-ELEMENTS"; "MAY-BE-UNCONNECTED"; "MEM-ALIGNMENT";
   "MIN"; "MIN-OK-STATE-INIT"; "MIN-OK-STATE-INVALID"; "MIN-OK-STATE-VALID"; "MINIMUM-SEND-INTERVAL";
   "MINIMUM-START-INTERVAL"; "MODE-ACCESS-POINT"; "MODE-ACCESS-POINTS"; "MODE-DECLARATION"; "MODE-DECLARATION-GROUP";
   "MODE-DECLARATIONS"; "MODE-GROUP"; "MODE-GROUP-IREF"; "MODE-GROUP-REF"; "MODE-IREF"; "MODE-IREFS";
   "MODE-MANAGER-ERROR-BEHAVIOR"; "MODE-SWITCH-INTERFACE"; "MODE-SWITCH-POINT"; "MODE-SWITCH-POINTS";
   "MODE-SWITCH-RECEIVER-COM-SPEC"; "MODE-SWITCH-SENDER-COM-SPEC"; "MODE-SWITCHED-ACK"; "MODE-SWITCHED-ACK-EVENT";
   "MODE-TRANSITION"; "MODE-TRANSITIONS"; "MODE-USER-ERROR-BEHAVIOR"; "MONOTONY"; "NATIVE-DECLARATION";
   "NETWORK-REPRESENTATION"; "NONQUEUED-RECEIVER-COM-SPEC"; "NONQUEUED-SENDER-COM-SPEC";
   "NOT-AVAILABLE-VALUE-SPECIFICATION"; "NUMBER-OF-BITS"; "NUMERICAL-VALUE-SPECIFICATION"; "NV-DATA-INTERFACE";
   "NV-DATAS"; "NV-PROVIDE-COM-SPEC"; "NV-REQUIRE-COM-SPEC"; "OFFSET"; "OFFSET-SI-TO-UNIT"; "ON-TRANSITION-VALUE";
   "OPERATION-INVOKED-EVENT"; "OPERATION-IREF"; "OPERATION-REF"; "OPERATIONS"; "OUTER-PORT-REF"; "P";
   "P-MODE-GROUP-IN-ATOMIC-SWC-INSTANCE-REF"; "P-PORT-IN-COMPOSITION-INSTANCE-REF"; "P-PORT-PROTOTYPE";
   "PARAMETER-ACCESS"; "PARAMETER-ACCESSS"; "PARAMETER-DATA-PROTOTYPE"; "PARAMETER-INTERFACE";
   "PARAMETER-PROVIDE-COM-SPEC"; "PARAMETER-REF"; "PARAMETER-REQUIRE-COM-SPEC"; "PARAMETERS";
   "PASS-THROUGH-SW-CONNECTOR"; "PERIOD"; "PHYS-CONSTRS"; "PHYSICAL-DIMENSION-REF"; "PORT-API-OPTION";
   "PORT-API-OPTIONS"; "PORT-ARG-VALUES"; "PORT-DEFINED-ARGUMENT-VALUE"; "PORT-PROTOTYPE-REF"; "PORT-REF"; "PORTS";
   "POSSIBLE-ERROR-REF"; "POSSIBLE-ERROR-REFS"; "POSSIBLE-ERRORS"; "PR-PORT-PROTOTYPE"; "PROVIDED-COM-SPECS";
   "PROVIDED-INTERFACE-TREF"; "PROVIDED-OUTER-PORT-REF"; "PROVIDED-REQUIRED-INTERFACE-TREF"; "PROVIDER-IREF";
   "QUEUE-LENGTH"; "QUEUED-RECEIVER-COM-SPEC"; "QUEUED-SENDER-COM-SPEC"; "R-MODE-GROUP-IN-ATOMIC-SWC-INSTANCE-REF";
   "R-PORT-IN-COMPOSITION-INSTANCE-REF"; "R-PORT-PROTOTYPE"; "RAM-BLOCK-INIT-VALUE"; "READ-LOCAL-VARIABLES";
   "RECEPTION-PROPS"; "RECORD-VALUE-SPECIFICATION"; "REENTRANCY-LEVEL"; "REPLACE-WITH"; "REQUESTER-IREF";
   "REQUIRED-COM-SPECS"; "REQUIRED-INTERFACE-TREF"; "REQUIRED-OUTER-PORT-REF"; "REQUIRED-RTE-VENDOR";
   "REQUIRED-TRIGGER-IREF"; "RETURN-VALUE-PROVISION"; "ROM-BLOCK-INIT-VALUE"; "ROOT-PARAMETER-DATA-PROTOTYPE-REF";
   "ROOT-VARIABLE-DATA-PROTOTYPE-REF"; "RUNNABLE-ENTITY"; "RUNNABLE-ENTITY-ARGUMENT"; "RUNNABLES";
   "RUNS-INSIDE-EXCLUSIVE-AREA-REF"; "RUNS-INSIDE-EXCLUSIVE-AREA-REFS"; "RUNS-INSIDES"; "SCALE-CONSTR";
   "SCALE-CONSTRS"; "SCOPE"; "SD"; "SDG"; "SDGS"; "SENDER-RECEIVER-INTERFACE"; "SERVER-ARGUMENT-IMPL-POLICY";
   "SERVER-CALL-POINTS"; "SERVER-COM-SPEC"; "SHORT-LABEL"; "SHORT-NAME"; "START-ON-EVENT-REF"; "STEP-SIZE"; "SUB";
   "SUB-ELEMENTS"; "SUP"; "SUPPORT-BUFFER-LOCKING"; "SUPPORTED-FEATURES"; "SUPPORTS-ASYNCHRONOUS-MODE-SWITCH";
   "SW-ADDR-METHOD"; "SW-ADDR-METHOD-REF"; "SW-ALIGNMENT"; "SW-ARRAYSIZE"; "SW-AXIS-CONT"; "SW-AXIS-CONTS";
   "SW-AXIS-INDEX"; "SW-BASE-TYPE"; "SW-BIT-REPRESENTATION"; "SW-CALIBRATION-ACCESS"; "SW-DATA-DEF-PROPS";
   "SW-DATA-DEF-PROPS-CONDITIONAL"; "SW-DATA-DEF-PROPS-VARIANTS"; "SW-FILL-CHARACTER"; "SW-IMPL-POLICY";
   "SW-INTENDED-RESOLUTION"; "SW-INTERPOLATION-METHOD"; "SW-IS-VIRTUAL"; "SW-MAX-TEXT-SIZE";
   "SW-POINTER-TARGET-PROPS"; "SW-TEXT-PROPS"; "SW-VALUE-CONT"; "SW-VALUES-PHYS"; "SWC-IMPLEMENTATION";
   "SWC-INTERNAL-BEHAVIOR"; "SWC-MODE-MANAGER-ERROR-EVENT"; "SWC-MODE-SWITCH-EVENT"; "SYMBOL"; "SYMBOL-PROPS";
   "SYNC-COUNTER-INIT"; "SYNCHRONOUS-SERVER-CALL-POINT"; "TARGET-CATEGORY"; "TARGET-DATA-ELEMENT-REF";
   "TARGET-DATA-PROTOTYPE-REF"; "TARGET-MODE-DECLARATION-REF"; "TARGET-MODE-GROUP-REF"; "TARGET-P-PORT-REF";
   "TARGET-PROVIDED-OPERATION-REF"; "TARGET-R-PORT-REF"; "TARGET-REQUIRED-OPERATION-REF"; "TARGET-TRIGGER-REF";
   "TEXT-VALUE-SPECIFICATION"; "TIMEOUT"; "TIMEOUT-SUBSTITUTION-VALUE"; "TIMING-EVENT";
   "TRANSFORMATION-COM-SPEC-PROPSS"; "TRANSFORMER-HARD-ERROR-EVENT"; "TRANSFORMER-STATUS-FORWARDING";
   "TRANSIT-TO-INVALID-EXTENDED"; "TRANSMISSION-ACKNOWLEDGE"; "TRANSMISSION-MODE"; "TRANSMISSION-PROPS";
   "TRIGGER-IREF"; "TRIGGER-REF"; "TT"; "TYPE-EMITTER"; "TYPE-TREF"; "UNIT"; "UNIT-DISPLAY-NAME"; "UNIT-REF";
   "UPPER-LIMIT"; "USES-END-TO-END-PROTECTION"; "V"; "VALUE"; "VALUE-SPEC"; "VALUE-TYPE-TREF"; "VARIABLE-ACCESS";
   "VARIABLE-DATA-PROTOTYPE"; "VARIABLE-REF"; "VERBATIM"; "VG"; "VT"; "WAIT-POINT"; "WAIT-POINTS"; "WINDOW-SIZE";
   "WINDOW-SIZE-INIT"; "WINDOW-SIZE-INVALID"; "WINDOW-SIZE-VALID"; "WRITTEN-LOCAL-VARIABLES"; "X"].
Definition among (l : list string) (tag : string) : bool := existsb (String.eqb tag) l.

(** ** Documents that mean the same *)
Definition same_attributes (a b : attrs) : Prop := forall name, assoc name a = assoc name b.
(** Elements of the same name and attributes.  A text must be the same where it is one.  The children
    of a sequence must correspond one by one; otherwise, for each name that means something, the children
    of that name must correspond in order, wherever they stand and whatever stands between them. *)
Inductive alike : xml -> xml -> Prop :=
| alike_sequence tag a b s t k l u w : among sequence_tags tag = true -> same_attributes a b ->
    (among text_tags tag = true -> s = t /\ u = w) ->
    Forall2 alike k l -> alike (Elem tag a s k u) (Elem tag b t l w)
| alike_properties tag a b s t k l u w : among sequence_tags tag = false -> same_attributes a b ->
    (among text_tags tag = true -> s = t /\ u = w) ->
    (forall name, among known_tags name = true -> Forall2 alike (findall name k) (findall name l)) ->
    alike (Elem tag a s k u) (Elem tag b t l w).

(** ** Changes that should not matter *)
(** One can be made from the other by: swapping neighbours of different names, adding or leaving out an
    element of a name that means nothing, in an element that is not a sequence; changing the texts around
    the children of an element that holds no text; reordering attributes of different names; doing so
    inside; and doing several of these. *)
Inductive rearranged : xml -> xml -> Prop :=
| r_swap tag a s k x y l u : among sequence_tags tag = false -> x_tag x <> x_tag y ->
    rearranged (Elem tag a s (k ++ x :: y :: l) u) (Elem tag a s (k ++ y :: x :: l) u)
| r_unknown tag a s k x l u : among sequence_tags tag = false -> among known_tags (x_tag x) = false ->
    rearranged (Elem tag a s (k ++ l) u) (Elem tag a s (k ++ x :: l) u)
| r_white_space tag a s t k u w : among text_tags tag = false -> rearranged (Elem tag a s k u) (Elem tag a t k w)
| r_attributes tag a n p m q b s k u : n <> m -> rearranged (Elem tag (a ++ (n, p) :: (m, q) :: b) s k u) (Elem tag (a ++ (m, q) :: (n, p) :: b) s k u)
| r_inside tag a s k x y l u : rearranged x y -> rearranged (Elem tag a s (k ++ x :: l) u) (Elem tag a s (k ++ y :: l) u)
| r_same x : rearranged x x
| r_back x y : rearranged x y -> rearranged y x
| r_then x y z : rearranged x y -> rearranged y z -> rearranged x z.
