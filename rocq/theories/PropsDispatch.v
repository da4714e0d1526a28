(** C72: single elements written with write_str_elem are read back by read_str_elem; what write_file_elem
    writes; the calls that raise an exception. *)
From Verif Require Import Base PBase MNames PNames MNum SNum PNum PNum3 MXml SXml PXml PXml2 MNs SNs PNs MEnum PEnum MRefTab MRef SEnum PRef MCodec SCodec PCodec PPiece PIdent MElem0 PElem0 PElemRef MElem1 MElemA MElemB MElemC MElem2 MElemD MElem3 MElem4 MElemE MElem5 MElemF SElem1 SElemA SElemB SElemC SElem2 SElemD SElem3 SElem4 SElemE SElem5 SElemF PElem1 PElemA PElemB PElemC PElem2 PElemD PElem3 PElem4 PElemE PElem5 PElemF MArxml SArxml PArxml MStr MDispatch SDispatch PDispatch.
Open Scope list_scope.

(** An object of any class the writer knows, written as the element it is found as in documents, is read
    back as the same object: the tables of the writer and of the reader fit together. *)
Theorem C72_round_trip v o tag type_name : good_object v o tag -> called_well o tag -> read_well o tag type_name ->
  exists text, write_str_elem v o tag = Ok text /\ read_str_elem v text type_name = Ok (as_read o).
Proof. apply round_trip. Qed.
(** ... in particular as one of the same class *)
Theorem C72_class_kept v o tag type_name text o' : good_object v o tag -> called_well o tag -> read_well o tag type_name ->
  write_str_elem v o tag = Ok text -> read_str_elem v text type_name = Ok o' -> class_name o' = class_name o.
Proof.
  intros G H R W Q. destruct (round_trip v o tag type_name G H R) as (t & W' & Q'). rewrite W' in W. injection W as ->.
  rewrite Q' in Q. injection Q as <-. apply class_as_read.
Qed.
(** Whatever name is given, the text is a well-formed document whose root element has that name. *)
Theorem C72_element v o tag : good_object v o tag -> called_well o tag ->
  exists text x, write_str_elem v o tag = Ok text /\ parse_names text = Ok x /\ x_tag x = name_in_text o tag.
Proof. apply written_text. Qed.
(** A name that is not wanted, or a missing one, is a TypeError ... *)
Theorem C72_wrong_arguments v o tag : match o with An_inline _ | An_other _ => False | _ => True end ->
  match element_of o, tag with Always _, Some _ => True | As_given, None => True | _, _ => False end ->
  write_str_elem v o tag = Err TypeError.
Proof. apply wrong_arguments. Qed.
(** ... except with the inline elements of texts, where it makes no difference. *)
Theorem C72_inline_any_tag v i tag tag' : write_str_elem v (An_inline i) tag = write_str_elem v (An_inline i) tag'.
Proof. apply inline_any_tag. Qed.
(** Objects of other classes cannot be written; elements of other names, and under other type names,
    cannot be read. *)
Theorem C72_unknown_class v o tag : ~ In (class_name o) writable_classes -> write_str_elem v o tag = Err NotImplementedError.
Proof. apply unknown_class. Qed.
Theorem C72_unknown_name v text x : parse_names text = Ok x -> ~ In (x_tag x) readable_names ->
  read_str_elem v text None = Err NotImplementedError.
Proof. apply unknown_name. Qed.
Theorem C72_unknown_type v text x t : parse_names text = Ok x -> ~ In t type_names -> read_str_elem v text (Some t) = Err NotImplementedError.
Proof. apply unknown_type. Qed.
(** write_file_elem writes the same text as write_str_elem, for the classes that can be elements of a
    package and for packages, and raises an exception for the others. *)
Theorem C72_file v o : (In (class_name o) collectable_classes -> write_file_elem v o = write_str_elem v o None) /\
  (~ In (class_name o) collectable_classes -> write_file_elem v o = Err NotImplementedError).
Proof. apply file_elem. Qed.

(** Not every element that is written can be read: no package can ... *)
Theorem C72_package_refuted v p : good_package v p ->
  exists text, write_str_elem v (An_Package p) None = Ok text /\ read_str_elem v text None = Err NotImplementedError.
Proof.
  intros G. destruct (written_text v (An_Package p) None G I) as (t & x & W & P & T). exists t. split; [exact W|].
  apply (unknown_name v t x P). rewrite T. cbn [name_in_text element_of]. intros I. apply (covered _ (filter (fun n => negb (String.eqb n "AR-PACKAGE")) readable_names)) in I.
  - apply filter_In in I as [_ I]. discriminate.
  - vm_compute. reflexivity.
Qed.
(** ... and no object whose class is told by the name of the element, under another name. *)
Theorem C72_other_name_refuted v o tag : good_object v o tag -> called_well o tag -> ~ In (name_in_text o tag) readable_names ->
  exists text, write_str_elem v o tag = Ok text /\ read_str_elem v text None = Err NotImplementedError.
Proof.
  intros G H N. destruct (written_text v o tag G H) as (t & x & W & P & T). exists t. split; [exact W|].
  apply (unknown_name v t x P). now rewrite T.
Qed.

(** ** The hypotheses can be met *)
Local Ltac textok := apply safe_textb_sound; vm_compute; reflexivity.
Local Ltac name := apply name_okb_sound; vm_compute; reflexivity.
(** Every class but packages has a name, or a type name, under which its objects are read. *)
Example C72_readable : forall o, match o with An_Package _ | An_other _ => False | _ => True end ->
  exists tag tn, read_well o tag tn.
Proof.
  destruct o; intros H; try (now destruct H);
    first [ exists None, None; left; split; [reflexivity|left; reflexivity]
          | (eexists (Some _), None); left; split; [reflexivity|cbn; left; reflexivity]
          | exists None, (type_name_of (An_ApplicationArrayElement e)); right; split; [discriminate|reflexivity]
          | exists (Some "ELEMENT"), (type_name_of (An_VariableDataPrototype e)); right; split; [discriminate|reflexivity]
          | exists (Some "ELEMENT"), (type_name_of (An_ParameterDataPrototype e)); right; split; [discriminate|reflexivity] ].
Qed.
Definition C72_text : ValueSpecificationElement := RecordValueSpecification (Some "Init") [TextValueSpecification None (Some "on"); NumericalValueSpecification (Some "N") (Some (Bare (NInt (-3))))].
Example C72_value : exists text, write_str_elem 51 (An_value C72_text) None = Ok text /\ read_str_elem 51 text None = Ok (An_value C72_text).
Proof. eexists. split; [vm_compute; reflexivity|]. vm_compute. reflexivity. Qed.
Example C72_value_by_theorem : exists text, write_str_elem 51 (An_value C72_text) None = Ok text /\ read_str_elem 51 text None = Ok (An_value C72_text).
Proof.
  apply (C72_round_trip 51 (An_value C72_text) None None).
  - cbn. repeat split; try discriminate; try textok; left; apply Nat.leb_le; reflexivity.
  - exact I.
  - left. split; [reflexivity|]. left. reflexivity.
Qed.
Definition C72_props : SymbolProps := mkSymbolProps "Speed" (Some "speed_u16").
Example C72_symbol : exists text, write_str_elem 51 (An_SymbolProps C72_props) (Some "SYMBOL-PROPS") = Ok text /\
  read_str_elem 51 text None = Ok (An_SymbolProps C72_props) /\
  write_str_elem 51 (An_SymbolProps C72_props) None = Err TypeError.
Proof. eexists. split; [vm_compute; reflexivity|]. split; vm_compute; reflexivity. Qed.
Example C72_phys_to_internal : forall e, good_Computation e ->
  exists text, write_str_elem 51 (An_Computation e) (Some "COMPU-PHYS-TO-INTERNAL") = Ok text /\ read_str_elem 51 text None = Err NotImplementedError.
Proof.
  intros e G. apply C72_other_name_refuted.
  - exact G.
  - cbn. name.
  - cbn [name_in_text element_of]. intros I. apply (covered _ (filter (fun n => negb (String.eqb n "COMPU-PHYS-TO-INTERNAL")) readable_names)) in I; [|vm_compute; reflexivity].
    apply filter_In in I as [_ I]. discriminate.
Qed.

Print Assumptions C72_round_trip.
Print Assumptions C72_class_kept.
Print Assumptions C72_element.
Print Assumptions C72_wrong_arguments.
Print Assumptions C72_inline_any_tag.
Print Assumptions C72_unknown_class.
Print Assumptions C72_unknown_name.
Print Assumptions C72_unknown_type.
Print Assumptions C72_file.
Print Assumptions C72_package_refuted.
Print Assumptions C72_other_name_refuted.
