(** Documents: what XML can carry (good_), and as what it comes back (norm_). *)
From Verif Require Import Base MNames MNum SNum MXml SXml MEnum MRefTab MRef SEnum MCodec SCodec MElem0 MElem1 MElemA MElemB MElemC MElem2 MElemD MElem3 MElem4 MElemE MElem5 MElemF MArxml SElem1 SElemA SElemB SElemC SElem2 SElemD SElem3 SElem4 SElemE SElem5 SElemF.

Definition good_ARElement (v : N) (e : ARElement) : Prop :=
  match e with
  | AR_CompuMethod e => good_CompuMethod e
  | AR_ApplicationArrayDataType e => good_ApplicationArrayDataType e
  | AR_ApplicationRecordDataType e => good_ApplicationRecordDataType e
  | AR_ApplicationPrimitiveDataType e => good_ApplicationPrimitiveDataType e
  | AR_SwBaseType e => good_SwBaseType e
  | AR_SwAddrMethod e => good_SwAddrMethod e
  | AR_ImplementationDataType e => good_ImplementationDataType e
  | AR_DataTypeMappingSet e => good_DataTypeMappingSet e
  | AR_DataConstraint e => good_DataConstraint e
  | AR_Unit e => good_Unit e
  | AR_ConstantSpecification e => good_ConstantSpecification e
  | AR_NvDataInterface e => good_NvDataInterface e
  | AR_ParameterInterface e => good_ParameterInterface e
  | AR_SenderReceiverInterface e => good_SenderReceiverInterface e
  | AR_ClientServerInterface e => good_ClientServerInterface e
  | AR_ModeSwitchInterface e => good_ModeSwitchInterface e
  | AR_ModeDeclarationGroup e => good_ModeDeclarationGroup e
  | AR_E2EProfileCompatibilityProps e => good_E2EProfileCompatibilityProps e
  | AR_ApplicationSoftwareComponentType e => good_ApplicationSoftwareComponentType v e
  | AR_CompositionSwComponentType e => good_CompositionSwComponentType e
  | AR_SwcImplementation e => good_SwcImplementation e
  end.
Definition norm_ARElement (e : ARElement) : ARElement :=
  match e with
  | AR_CompuMethod e => AR_CompuMethod (norm_CompuMethod e)
  | AR_ApplicationArrayDataType e => AR_ApplicationArrayDataType (norm_ApplicationArrayDataType e)
  | AR_ApplicationRecordDataType e => AR_ApplicationRecordDataType (norm_ApplicationRecordDataType e)
  | AR_ApplicationPrimitiveDataType e => AR_ApplicationPrimitiveDataType (norm_ApplicationPrimitiveDataType e)
  | AR_SwBaseType e => AR_SwBaseType e
  | AR_SwAddrMethod e => AR_SwAddrMethod e
  | AR_ImplementationDataType e => AR_ImplementationDataType (norm_ImplementationDataType e)
  | AR_DataTypeMappingSet e => AR_DataTypeMappingSet e
  | AR_DataConstraint e => AR_DataConstraint (norm_DataConstraint e)
  | AR_Unit e => AR_Unit (norm_Unit e)
  | AR_ConstantSpecification e => AR_ConstantSpecification (norm_ConstantSpecification e)
  | AR_NvDataInterface e => AR_NvDataInterface (norm_NvDataInterface e)
  | AR_ParameterInterface e => AR_ParameterInterface (norm_ParameterInterface e)
  | AR_SenderReceiverInterface e => AR_SenderReceiverInterface (norm_SenderReceiverInterface e)
  | AR_ClientServerInterface e => AR_ClientServerInterface (norm_ClientServerInterface e)
  | AR_ModeSwitchInterface e => AR_ModeSwitchInterface e
  | AR_ModeDeclarationGroup e => AR_ModeDeclarationGroup e
  | AR_E2EProfileCompatibilityProps e => AR_E2EProfileCompatibilityProps e
  | AR_ApplicationSoftwareComponentType e => AR_ApplicationSoftwareComponentType (norm_ApplicationSoftwareComponentType e)
  | AR_CompositionSwComponentType e => AR_CompositionSwComponentType (norm_CompositionSwComponentType e)
  | AR_SwcImplementation e => AR_SwcImplementation e
  end.

(** All children of a package, elements and sub-packages, have different names. *)
Fixpoint good_package (v : N) (p : package) : Prop :=
  match p with
  | mkPackage ident es ps =>
      good_ident ident /\ NoDup (map element_name es ++ map package_name ps) /\
      all_ok (good_ARElement v) es /\ all_ok (good_package v) ps
  end.
Fixpoint norm_package (p : package) : package :=
  match p with mkPackage ident es ps => mkPackage ident (map norm_ARElement es) (map norm_package ps) end.
Definition good_document (d : document) : Prop :=
  NoDup (map package_name (doc_packages d)) /\ all_ok (good_package (doc_schema_version d)) (doc_packages d).
Definition norm_document (d : document) : document := mkDocument (map norm_package (doc_packages d)) (doc_schema_version d).

(** The shape of a package tree: names, kinds and order of elements, nesting of packages. *)
Definition kind (e : ARElement) : string :=
  match e with
  | AR_CompuMethod _ => "CompuMethod"
  | AR_ApplicationArrayDataType _ => "ApplicationArrayDataType"
  | AR_ApplicationRecordDataType _ => "ApplicationRecordDataType"
  | AR_ApplicationPrimitiveDataType _ => "ApplicationPrimitiveDataType"
  | AR_SwBaseType _ => "SwBaseType"
  | AR_SwAddrMethod _ => "SwAddrMethod"
  | AR_ImplementationDataType _ => "ImplementationDataType"
  | AR_DataTypeMappingSet _ => "DataTypeMappingSet"
  | AR_DataConstraint _ => "DataConstraint"
  | AR_Unit _ => "Unit"
  | AR_ConstantSpecification _ => "ConstantSpecification"
  | AR_NvDataInterface _ => "NvDataInterface"
  | AR_ParameterInterface _ => "ParameterInterface"
  | AR_SenderReceiverInterface _ => "SenderReceiverInterface"
  | AR_ClientServerInterface _ => "ClientServerInterface"
  | AR_ModeSwitchInterface _ => "ModeSwitchInterface"
  | AR_ModeDeclarationGroup _ => "ModeDeclarationGroup"
  | AR_E2EProfileCompatibilityProps _ => "E2EProfileCompatibilityProps"
  | AR_ApplicationSoftwareComponentType _ => "ApplicationSoftwareComponentType"
  | AR_CompositionSwComponentType _ => "CompositionSwComponentType"
  | AR_SwcImplementation _ => "SwcImplementation"
  end.
Inductive outline := Outline (name : string) (elements : list (string * string)) (packages : list outline).
Fixpoint outline_of (p : package) : outline :=
  match p with mkPackage ident es ps => Outline (id_name ident) (map (fun e => (kind e, element_name e)) es) (map outline_of ps) end.
(** A document whose elements have only parts that come back unchanged. *)
Fixpoint unchanged (p : package) : Prop :=
  match p with mkPackage _ es ps => all_ok (fun e => norm_ARElement e = e) es /\ all_ok unchanged ps end.
(** A text that names a schema version: AUTOSAR_, digits, any character but a newline, xsd. *)
Definition names_version (s : string) : Prop :=
  exists before digits c after, s = (before ++ "AUTOSAR_" ++ digits ++ String c ("xsd" ++ after))%string /\
    digits <> "" /\ all_chars (fun d => digit_val d <> None) digits /\ c <> ascii_of_nat 10.
(** An attribute that names a schema version. *)
Definition has_version (a : attrs) : Prop :=
  exists n s, In (n, s) a /\ (exists before, n = before ++ "schemaLocation")%string /\ names_version s.

(** ** Tolerant reading *)

(** What becomes of one child of an ELEMENTS element. *)
Inductive outcome :=
| Unknown                       (* no reader for its tag *)
| Good (e : ARElement)          (* read *)
| Bad                           (* ParseError or DuplicateElement *)
| Crash (e : exn).              (* any other exception *)
Definition outcome_of (v : N) (x : xml) : outcome :=
  match read_collectable v (x_tag x) with
  | None => Unknown
  | Some read => match read x with
                 | Ok e => Good e
                 | Err ParseError => Bad
                 | Err DuplicateElement => Bad
                 | Err e => Crash e
                 end
  end.
(** The elements that were read, in order. *)
Fixpoint goods (l : list outcome) : list ARElement :=
  match l with [] => [] | Good e :: r => e :: goods r | _ :: r => goods r end.
(** The first exception that is not a parse error. *)
Fixpoint first_crash (l : list outcome) : option exn :=
  match l with [] => None | Crash e :: _ => Some e | _ :: r => first_crash r end.
(** Of several elements with the same name the first, none with a name in [seen]. *)
Fixpoint first_of_each_name (seen : list string) (l : list ARElement) : list ARElement :=
  match l with
  | [] => []
  | e :: r => if in_dec string_dec (element_name e) seen then first_of_each_name seen r
              else e :: first_of_each_name (element_name e :: seen) r
  end.
(** Child [x] of an ELEMENTS element, after the children [before], is skipped: its kind is unknown,
    it does not parse, or it repeats the name of an element before. *)
Definition skipped (v : N) (before : list xml) (x : xml) : Prop :=
  match outcome_of v x with
  | Unknown | Bad => True
  | Good e => exists y f, In y before /\ outcome_of v y = Good f /\ element_name f = element_name e
  | Crash _ => False
  end.
(** [x'] is the package element [x] with one skipped child less, in the package itself or in a
    sub-package at any depth; the text between elements does not matter. *)
Inductive one_less (v : N) : xml -> xml -> Prop :=
| less_here tag a t k1 k2 te ae before x after l l' m m' :
    get "ELEMENTS" k1 = None -> skipped v before x ->
    one_less v (Elem tag a t (k1 ++ Elem "ELEMENTS" ae te (before ++ x :: after) m :: k2) l)
               (Elem tag a t (k1 ++ Elem "ELEMENTS" ae te (before ++ after) m' :: k2) l')
| less_below tag a t k1 k2 te ae before x x' after l l' m m' :
    get "AR-PACKAGES" k1 = None -> x_tag x = "AR-PACKAGE" -> x_tag x' = "AR-PACKAGE" -> one_less v x x' ->
    one_less v (Elem tag a t (k1 ++ Elem "AR-PACKAGES" ae te (before ++ x :: after) m :: k2) l)
               (Elem tag a t (k1 ++ Elem "AR-PACKAGES" ae te (before ++ x' :: after) m' :: k2) l').
(** [r'] is the document [r] with one skipped element less, in a package at any depth. *)
Inductive one_less_in_document (v : N) : xml -> xml -> Prop :=
| less_in_package tag a t k1 k2 te ae before x x' after l l' m m' :
    x_tag x = "AR-PACKAGE" -> x_tag x' = "AR-PACKAGE" -> one_less v x x' ->
    one_less_in_document v (Elem tag a t (k1 ++ Elem "AR-PACKAGES" ae te (before ++ x :: after) m :: k2) l)
                           (Elem tag a t (k1 ++ Elem "AR-PACKAGES" ae te (before ++ x' :: after) m' :: k2) l').
