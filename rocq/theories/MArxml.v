(** ARXML documents: packages with their elements and sub-packages, the root element with the
    schema version, reading and writing of whole documents.
    Sources: /repo/src/autosar/xml/element.py, document.py, writer.py, reader.py; the line numbers in
    the comments refer to these files.  No proofs in this file.
    Simplifications: parent links are left out (see MHeap.v); the name maps of packages and documents hold the
    short-names of the listed children (proved for every history of operations in PropsHeap.v), so
    that looking up a name in the map is looking for it among the children; warnings are not modelled. *)
From Verif Require Import Base MNames MNum MXml MNs MEnum MRefTab MRef MCodec MElem0 MElem1 MElemA MElemB MElemC MElem2 MElemD MElem3 MElem4 MElemE MElem5 MElemF.

(** ** Elements of packages *)

(** The classes derived from ARElement which self.switcher_collectable of the writer knows,
    writer.py:186-234 *)
Inductive ARElement :=
| AR_CompuMethod (e : CompuMethod)
| AR_ApplicationArrayDataType (e : ApplicationArrayDataType)
| AR_ApplicationRecordDataType (e : ApplicationRecordDataType)
| AR_ApplicationPrimitiveDataType (e : ApplicationPrimitiveDataType)
| AR_SwBaseType (e : SwBaseType)
| AR_SwAddrMethod (e : SwAddrMethod)
| AR_ImplementationDataType (e : ImplementationDataType)
| AR_DataTypeMappingSet (e : DataTypeMappingSet)
| AR_DataConstraint (e : DataConstraint)
| AR_Unit (e : Unit)
| AR_ConstantSpecification (e : ConstantSpecification)
| AR_NvDataInterface (e : NvDataInterface)
| AR_ParameterInterface (e : ParameterInterface)
| AR_SenderReceiverInterface (e : SenderReceiverInterface)
| AR_ClientServerInterface (e : ClientServerInterface)
| AR_ModeSwitchInterface (e : ModeSwitchInterface)
| AR_ModeDeclarationGroup (e : ModeDeclarationGroup)
| AR_E2EProfileCompatibilityProps (e : E2EProfileCompatibilityProps)
| AR_ApplicationSoftwareComponentType (e : ApplicationSoftwareComponentType)
| AR_CompositionSwComponentType (e : CompositionSwComponentType)
| AR_SwcImplementation (e : SwcImplementation).
(** elem.name, the short-name, element.py:178-185 *)
Definition element_name (e : ARElement) : string :=
  id_name (match e with
  | AR_CompuMethod e => CompuMethod_ident e
  | AR_ApplicationArrayDataType e => ApplicationArrayDataType_ident e
  | AR_ApplicationRecordDataType e => ApplicationRecordDataType_ident e
  | AR_ApplicationPrimitiveDataType e => ApplicationPrimitiveDataType_ident e
  | AR_SwBaseType e => SwBaseType_ident e
  | AR_SwAddrMethod e => SwAddrMethod_ident e
  | AR_ImplementationDataType e => ImplementationDataType_ident e
  | AR_DataTypeMappingSet e => DataTypeMappingSet_ident e
  | AR_DataConstraint e => DataConstraint_ident e
  | AR_Unit e => Unit_ident e
  | AR_ConstantSpecification e => ConstantSpecification_ident e
  | AR_NvDataInterface e => NvDataInterface_ident e
  | AR_ParameterInterface e => ParameterInterface_ident e
  | AR_SenderReceiverInterface e => SenderReceiverInterface_ident e
  | AR_ClientServerInterface e => ClientServerInterface_ident e
  | AR_ModeSwitchInterface e => ModeSwitchInterface_ident e
  | AR_ModeDeclarationGroup e => ModeDeclarationGroup_ident e
  | AR_E2EProfileCompatibilityProps e => E2EProfileCompatibilityProps_ident e
  | AR_ApplicationSoftwareComponentType e => ApplicationSoftwareComponentType_ident e
  | AR_CompositionSwComponentType e => CompositionSwComponentType_ident e
  | AR_SwcImplementation e => SwcImplementation_ident e
  end).
(** write_method(elem) of self.switcher_collectable, writer.py:186-234, 540-549 *)
Definition write_collectable (v : N) (e : ARElement) : out :=
  match e with
  | AR_CompuMethod e => write_compu_method v e
  | AR_ApplicationArrayDataType e => write_application_array_data_type v e
  | AR_ApplicationRecordDataType e => write_application_record_data_type v e
  | AR_ApplicationPrimitiveDataType e => write_application_primitive_data_type v e
  | AR_SwBaseType e => write_sw_base_type v e
  | AR_SwAddrMethod e => write_sw_addr_method v e
  | AR_ImplementationDataType e => write_implementation_data_type v e
  | AR_DataTypeMappingSet e => write_data_type_mapping_set v e
  | AR_DataConstraint e => write_data_constraint v e
  | AR_Unit e => write_unit v e
  | AR_ConstantSpecification e => write_constant_specification v e
  | AR_NvDataInterface e => write_nv_data_interface v e
  | AR_ParameterInterface e => write_parameter_interface v e
  | AR_SenderReceiverInterface e => write_sender_receiver_interface v e
  | AR_ClientServerInterface e => write_client_server_interface v e
  | AR_ModeSwitchInterface e => write_mode_switch_interface v e
  | AR_ModeDeclarationGroup e => write_mode_declaration_group v e
  | AR_E2EProfileCompatibilityProps e => write_e2e_profile_compatibility_props v e
  | AR_ApplicationSoftwareComponentType e => write_application_software_component_type v e
  | AR_CompositionSwComponentType e => write_composition_sw_component_type v e
  | AR_SwcImplementation e => write_swc_implementation v e
  end.
(** self.switcher_collectable.get(tag) of the reader and the assertion that an ARElement was read,
    reader.py:129-184, 651-658: a data filter, an engineering object and code are not ARElements *)
Definition read_collectable (v : N) (tag : string) : option (xml -> result ARElement) :=
  if String.eqb tag "COMPU-METHOD" then Some (fun x => let* e := read_compu_method v x in Ok (AR_CompuMethod e)) else
  if String.eqb tag "APPLICATION-ARRAY-DATA-TYPE" then Some (fun x => let* e := read_application_array_data_type v x in Ok (AR_ApplicationArrayDataType e)) else
  if String.eqb tag "APPLICATION-RECORD-DATA-TYPE" then Some (fun x => let* e := read_application_record_data_type v x in Ok (AR_ApplicationRecordDataType e)) else
  if String.eqb tag "APPLICATION-PRIMITIVE-DATA-TYPE" then Some (fun x => let* e := read_application_primitive_data_type v x in Ok (AR_ApplicationPrimitiveDataType e)) else
  if String.eqb tag "SW-BASE-TYPE" then Some (fun x => let* e := read_sw_base_type v x in Ok (AR_SwBaseType e)) else
  if String.eqb tag "SW-ADDR-METHOD" then Some (fun x => let* e := read_sw_addr_method v x in Ok (AR_SwAddrMethod e)) else
  if String.eqb tag "IMPLEMENTATION-DATA-TYPE" then Some (fun x => let* e := read_implementation_data_type v x in Ok (AR_ImplementationDataType e)) else
  if String.eqb tag "DATA-TYPE-MAPPING-SET" then Some (fun x => let* e := read_data_type_mapping_set v x in Ok (AR_DataTypeMappingSet e)) else
  if String.eqb tag "DATA-CONSTR" then Some (fun x => let* e := read_data_constraint v x in Ok (AR_DataConstraint e)) else
  if String.eqb tag "UNIT" then Some (fun x => let* e := read_unit v x in Ok (AR_Unit e)) else
  if String.eqb tag "CONSTANT-SPECIFICATION" then Some (fun x => let* e := read_constant_specification v x in Ok (AR_ConstantSpecification e)) else
  if String.eqb tag "NV-DATA-INTERFACE" then Some (fun x => let* e := read_nv_data_interface v x in Ok (AR_NvDataInterface e)) else
  if String.eqb tag "PARAMETER-INTERFACE" then Some (fun x => let* e := read_parameter_interface v x in Ok (AR_ParameterInterface e)) else
  if String.eqb tag "SENDER-RECEIVER-INTERFACE" then Some (fun x => let* e := read_sender_receiver_interface v x in Ok (AR_SenderReceiverInterface e)) else
  if String.eqb tag "CLIENT-SERVER-INTERFACE" then Some (fun x => let* e := read_client_server_interface v x in Ok (AR_ClientServerInterface e)) else
  if String.eqb tag "MODE-SWITCH-INTERFACE" then Some (fun x => let* e := read_mode_switch_interface v x in Ok (AR_ModeSwitchInterface e)) else
  if String.eqb tag "MODE-DECLARATION-GROUP" then Some (fun x => let* e := read_mode_declaration_group v x in Ok (AR_ModeDeclarationGroup e)) else
  if String.eqb tag "E-2-E-PROFILE-COMPATIBILITY-PROPS" then Some (fun x => let* e := read_e2e_profile_compatibility_props v x in Ok (AR_E2EProfileCompatibilityProps e)) else
  if String.eqb tag "APPLICATION-SW-COMPONENT-TYPE" then Some (fun x => let* e := read_application_sw_component_type v x in Ok (AR_ApplicationSoftwareComponentType e)) else
  if String.eqb tag "COMPOSITION-SW-COMPONENT-TYPE" then Some (fun x => let* e := read_composition_sw_component_type v x in Ok (AR_CompositionSwComponentType e)) else
  if String.eqb tag "SWC-IMPLEMENTATION" then Some (fun x => let* e := read_swc_implementation v x in Ok (AR_SwcImplementation e)) else
  if String.eqb tag "DATA-FILTER" then Some (fun x => let* _ := read_data_filter v x in Err AssertionError) else
  if String.eqb tag "AUTOSAR-ENGINEERING-OBJECT" then Some (fun x => let* _ := read_autosar_engineering_object v x in Err AssertionError) else
  if String.eqb tag "CODE" then Some (fun x => let* _ := read_code v x in Err AssertionError) else
  None.

(** ** Packages *)

(** Package, element.py:2834-2843 *)
Inductive package := mkPackage (ident : identifiable) (elements : list ARElement) (packages : list package).
(** package.name, element.py:178-185 *)
Definition package_name (p : package) : string := match p with mkPackage i _ _ => id_name i end.
(** The keys of package._collection_map, element.py:2843, 2855, 2864 *)
Definition names_in (p : package) : list string :=
  match p with mkPackage _ es ps => map element_name es ++ map package_name ps end.
(** name in names *)
Definition among (name : string) (names : list string) : bool := existsb (String.eqb name) names.
(** package.append(element), element.py:2857-2864 *)
Definition append_element (p : package) (e : ARElement) : result package :=
  if among (element_name e) (names_in p) then Err DuplicateElement
  else match p with mkPackage i es ps => Ok (mkPackage i (es ++ [e]) ps) end.
(** package.append(sub_package), element.py:2849-2856 *)
Definition append_package (p q : package) : result package :=
  if among (package_name q) (names_in p) then Err DuplicateElement
  else match p with mkPackage i es ps => Ok (mkPackage i es (ps ++ [q])) end.

(** _write_package, _write_package_elements, _write_sub_packages, writer.py:520-555 *)
Fixpoint write_package (v : N) (p : package) : out :=
  match p with
  | mkPackage ident elements packages =>
      node "AR-PACKAGE" (identifiable_attributes ident) (cat [
        write_referrable ident;
        write_multilanguage_referrable ident;
        write_identifiable ident;
        if_some elements (node "ELEMENTS" [] (for_each elements (fun a => write_collectable v a)));
        if_some packages (node "AR-PACKAGES" [] (for_each packages (fun a => write_package v a))) ])
  end.
(** _read_package_elements, reader.py:646-673: a parse error or a repeated name is reported, and
    raised only if stop_on_error is set; elements of unknown kind are reported *)
Fixpoint read_package_elements (v : N) (stop_on_error : bool) (p : package) (kids : list xml) : result package :=
  match kids with
  | [] => Ok p
  | x :: r =>
      match read_collectable v (x_tag x) with
      | None => read_package_elements v stop_on_error p r
      | Some read =>
          match (let* e := read x in append_element p e) with
          | Ok q => read_package_elements v stop_on_error q r
          | Err ParseError => if stop_on_error then Err ParseError else read_package_elements v stop_on_error p r
          | Err DuplicateElement => if stop_on_error then Err DuplicateElement else read_package_elements v stop_on_error p r
          | Err e => Err e
          end
      end
  end.
(** _read_sub_packages, reader.py:675-683; [self] is _read_package *)
Fixpoint read_sub_packages (self : xml -> result package) (p : package) (l : list xml) : result package :=
  match l with
  | [] => Ok p
  | x :: r => let* q := self x in let* p' := append_package p q in read_sub_packages self p' r
  end.
(** _read_package and _read_package_group, reader.py:621-644 *)
Definition read_package_ (v : N) (stop_on_error : bool) (self : xml -> result package) (x : xml) : result package :=
  let k := x_kids x in
  let* d_ident := read_ident (x_attrs x) k in
  let* ident := new_identifiable d_ident in
  let* p := match get "ELEMENTS" k with
            | None => Ok (mkPackage ident [] [])
            | Some y => read_package_elements v stop_on_error (mkPackage ident [] []) (x_kids y)
            end in
  match get "AR-PACKAGES" k with
  | None => Ok p
  | Some y => read_sub_packages self p (findall "AR-PACKAGE" (x_kids y))
  end.
(** reader.py:621-644, tied *)
Definition read_package (v : N) (stop_on_error : bool) (x : xml) : result package := recursive (read_package_ v stop_on_error) x.

(** ** Documents *)

(** Document, document.py:9-36, as far as it is written and read *)
Record document := mkDocument { doc_packages : list package; doc_schema_version : N }.
(** document.append(package), element.py:3024-3035 *)
Definition collection_append (l : list package) (p : package) : result (list package) :=
  if among (package_name p) (map package_name l) then Err ValueError else Ok (l ++ [p]).
(** document.schema_file, document.py:17-22: five digits at least *)
Definition schema_file (v : N) : string :=
  ("AUTOSAR_" ++ zeros (5 - String.length (dec v)) ++ dec v ++ ".xsd")%string.
(** The attributes of the root element, writer.py:505-508 *)
Definition root_attributes (v : N) : attrs :=
  [ ("xsi:schemaLocation", ("http://autosar.org/schema/r4.0 " ++ schema_file v)%string);
    ("xmlns", "http://autosar.org/schema/r4.0");
    ("xmlns:xsi", "http://www.w3.org/2001/XMLSchema-instance") ].
(** _write_document and _write_packages, writer.py:498-517 *)
Definition write_document (skip_root_attr : bool) (d : document) : out :=
  node "AUTOSAR" (if skip_root_attr then [] else root_attributes (doc_schema_version d))
    (if_some (doc_packages d)
       (node "AR-PACKAGES" [] (for_each (doc_packages d) (fun p => write_package (doc_schema_version d) p)))).
(** The text of the document with an indentation of two spaces, writer.py:180, 401-415:
    write_str(document, skip_root_attr), and what write_file puts into the file (skip_root_attr is
    then False) *)
Definition write_str (d : document) (skip_root_attr : bool) : result string :=
  let* l := write_document skip_root_attr d in
  match l with [w] => render_doc 2 w | _ => Err AssertionError end.
Definition write_file (d : document) : result string := write_str d false.

(** s.endswith(p) *)
Fixpoint ends_with (p s : string) : bool :=
  String.eqb s p || match s with "" => false | String _ r => ends_with p r end.
(** The number of digits at the start *)
Fixpoint digit_run (s : string) : nat :=
  match s with
  | String c r => match digit_val c with Some _ => S (digit_run r) | None => O end
  | "" => O
  end.
(** The rest of the pattern r'AUTOSAR_(\d+).xsd' after the digits: any character but a newline, then xsd *)
Definition xsd_after (s : string) : bool :=
  match s with String c r => negb (Ascii.eqb c (ascii_of_nat 10)) && starts_with "xsd" r | "" => false end.
(** The digits of the match: as many as possible, fewer if the rest does not match otherwise *)
Fixpoint match_digits (n : nat) (s : string) : option N :=
  match n with
  | O => None
  | S m => if xsd_after (str_drop n s) then Some (digits_prefix (str_take n s) 0) else match_digits m s
  end.
(** re.search(r'AUTOSAR_(\d+).xsd', s) and int(match.group(1)), reader.py:592-597 *)
Fixpoint search_version (s : string) : option N :=
  match match strip_prefix "AUTOSAR_" s with Some r => match_digits (digit_run r) r | None => None end with
  | Some n => Some n
  | None => match s with "" => None | String _ r => search_version r end
  end.
(** _read_schema_version, reader.py:589-597: [v] is the reader's schema_version before *)
Definition read_schema_version (v : N) (a : attrs) : N :=
  fold_left (fun v p => if ends_with "schemaLocation" (fst p)
                        then match search_version (snd p) with Some n => n | None => v end
                        else v) a v.
(** _read_packages, reader.py:615-619 *)
Fixpoint read_packages (v : N) (stop_on_error : bool) (l : list package) (kids : list xml) : result (list package) :=
  match kids with
  | [] => Ok l
  | x :: r =>
      if String.eqb (x_tag x) "AR-PACKAGE"
      then let* p := read_package v stop_on_error x in
           let* l' := collection_append l p in
           read_packages v stop_on_error l' r
      else read_packages v stop_on_error l r
  end.
(** read_str and read_file after the parser and _clean_namespace (MNs.v), reader.py:350-378, 581-584, with the reader's
    schema_version before and after *)
Definition read_root (v : N) (stop_on_error : bool) (root : xml) : N * result document :=
  let v' := read_schema_version v (x_attrs root) in
  (v', let* l := read_packages v' stop_on_error [] (List.concat (map x_kids (findall "AR-PACKAGES" (x_kids root)))) in
       Ok (mkDocument l v')).
(** read_str(text, stop_on_error), reader.py:365-378; read_file does the same with the text of a file *)
Definition read_str (v : N) (text : string) (stop_on_error : bool) : N * result document :=
  match load text with
  | Err e => (v, Err e)
  | Ok root => read_root v stop_on_error root
  end.
