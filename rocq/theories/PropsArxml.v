(** C24 (package tree round trip), C30 (tolerant reading), C31 (schema version). *)
From Verif Require Import Base PBase MNames PNames MNum SNum PNum PNum3 MXml SXml PXml PXml2 MEnum PEnum MRefTab MRef SEnum PRef MCodec SCodec PCodec PPiece PIdent MElem0 PElem0 PElemRef MElem1 MElemA MElemB MElemC MElem2 MElemD MElem3 MElem4 MElemE MElem5 MElemF SElem1 SElemA SElemB SElemC SElem2 SElemD SElem3 SElem4 SElemE SElem5 SElemF PElem1 PElemA PElemB PElemC PElem2 PElemD PElem3 PElem4 PElemE PElem5 PElemF MArxml SArxml PArxml.
Open Scope list_scope.

(** Shows that an example object satisfies its [good_] condition. *)
Ltac good := repeat match goal with
  | |- True => exact I
  | |- opt_ok ?P ?o => let o' := eval hnf in o in match o' with None => exact I | Some ?a => change (P a); cbv beta end
  | |- all_ok ?P ?l => let l' := eval hnf in l in match l' with nil => exact I | ?a :: ?r => change (P a /\ all_ok P r); cbv beta end
  | |- _ = _ => reflexivity
  | |- NoDup _ => apply nodupb_sound; reflexivity
  | |- safe_text _ => apply safe_textb_sound; reflexivity
  | |- safe_attr _ => apply safe_attrb_sound; reflexivity
  | |- valid_ref _ _ => unfold valid_ref; cbn; tauto
  | |- (_ <= _)%Z => discriminate
  | |- _ <> _ => discriminate
  | |- _ /\ _ => split
  | |- good_lang _ => apply good_plain_lang
  | |- good_names ?l => apply (good_plain_names (map (fun p => match p with PText s => s | PInline _ => "" end) l))
  | |- _ => progress (cbn; red)
  | |- _ => progress cbn
  end.

(** ** Example document *)
Definition name_only (n : string) : identifiable := mkIdent n None None None None None None None.
Definition ex_base : ARElement := AR_SwBaseType
  (mkSwBaseType (mkIdent "uint8" None (Some [mkLang Language_EN [PText "An octet"]]) (Some "FIXED_LENGTH") None None None (Some "1-2-3")) (Some 8%Z) None (Some "NONE") None None (Some "unsigned char")).
Definition ex_constant : ARElement := AR_ConstantSpecification
  (mkConstantSpecification (name_only "Init")
     (Some (RecordValueSpecification (Some "Init") [NumericalValueSpecification (Some "x") (Some (Bare (NInt (-5))));
        ArrayValueSpecification None [TextValueSpecification None (Some "a b"); ConstantReference None (Some (mkRef "/Constants/Zero" IdentifiableSubTypes_CONSTANT_SPECIFICATION))]]))).
Definition ex_unit (n : string) : ARElement := AR_Unit (mkUnit (name_only n) (Some [PText "km"; PText "/h"]) None None None).
Definition ex_document : document := mkDocument
  [mkPackage (mkIdent "Types" (Some [mkLang Language_EN [PText "All types"]]) None None None None None None) [ex_base; ex_unit "Speed"]
     [mkPackage (name_only "Deep") [ex_unit "Speed"] []; mkPackage (name_only "Empty") [] []];
   mkPackage (name_only "Constants") [ex_constant] []] 49.
Example ex_document_good : good_document ex_document.
Proof. good. Qed.

(** ** C24 *)

(** Writing a document to a file and reading the file, with any reader in any mode, gives the
    document again, element by element as [norm_ARElement] says: text differs nowhere, only the
    representation of numbers, unit names and the parts listed at the [norm_] functions. *)
Theorem C24_document_round_trip d : good_document d ->
  exists text, write_file d = Ok text /\
    forall rv stop, read_str rv text stop = (doc_schema_version d, Ok (norm_document d)).
Proof.
  intros G. destruct (document_text false d G) as (t & x & W & P & _ & R). exists t. split; [exact W|]. intros rv stop.
  unfold read_str. rewrite P. apply R. discriminate.
Qed.
(** The names, kinds, order and nesting are the same. *)
Theorem C24_same_shape d : good_document d ->
  exists text d', write_file d = Ok text /\ (forall rv stop, snd (read_str rv text stop) = Ok d') /\
    map outline_of (doc_packages d') = map outline_of (doc_packages d).
Proof.
  intros G. destruct (C24_document_round_trip d G) as (t & W & R). exists t, (norm_document d). splits; auto.
  - intros rv stop. now rewrite R.
  - cbn [norm_document doc_packages]. rewrite map_map. apply map_ext, norm_outline.
Qed.
(** Documents without such parts come back equal. *)
Theorem C24_exact_round_trip d : good_document d -> all_ok unchanged (doc_packages d) ->
  exists text, write_file d = Ok text /\ forall rv stop, read_str rv text stop = (doc_schema_version d, Ok d).
Proof.
  intros G U. destruct (C24_document_round_trip d G) as (t & W & R). exists t. split; auto. intros rv stop. rewrite R. do 2 f_equal.
  destruct d as [ps v]. unfold norm_document. cbn [doc_packages doc_schema_version] in *. f_equal. clear - U. induction ps as [|p ps IH]; cbn in *; auto.
  destruct U as [U1 U2]. rewrite norm_unchanged, IH; auto.
Qed.
(** write_str leaves the schema out unless told otherwise: a reader set to the same version still
    gets the document. *)
Theorem C24_string_round_trip d : good_document d ->
  exists text, write_str d true = Ok text /\
    forall stop, read_str (doc_schema_version d) text stop = (doc_schema_version d, Ok (norm_document d)).
Proof.
  intros G. destruct (bare_text d G) as (t & x & W & P & _ & R). exists t. split; auto. intros stop. unfold read_str. rewrite P. apply R.
Qed.
(** Two children of a package with the same name do not come back: the reader in strict mode
    rejects what the writer wrote for a package built around the name check. *)
Example C24_unique_names_needed :
  let d := mkDocument [mkPackage (name_only "P") [ex_unit "U"] [mkPackage (name_only "U") [] []]] 51 in
  (let* text := write_file d in snd (read_str 51 text true)) = Err DuplicateElement.
Proof. vm_compute. reflexivity. Qed.
Example C24_example : exists text, write_file ex_document = Ok text /\
  forall rv stop, read_str rv text stop = (49%N, Ok (norm_document ex_document)).
Proof. exact (C24_document_round_trip ex_document ex_document_good). Qed.
Example C24_exact_example : good_document (mkDocument [mkPackage (name_only "T") [ex_base] [mkPackage (name_only "C") [ex_constant] []]] 51) /\
  all_ok unchanged [mkPackage (name_only "T") [ex_base] [mkPackage (name_only "C") [ex_constant] []]].
Proof. split; good. Qed.

(** A document with a formatted description is written; reading it fails, or leaves the element out. *)
Definition emphasised (n : string) : ARElement := AR_Unit (mkUnit
  (mkIdent n None (Some [mkLang Language_EN [PText "do "; PInline (IEmphasis (Some "not") None None None)]]) None None None None None) None None None None).
Definition ex_emphasised := mkDocument [mkPackage (name_only "P") [ex_unit "A"; emphasised "B"; ex_unit "C"] []] 51.
Example C52_document_example :
  (let* text := write_file ex_emphasised in snd (read_str 51 text true)) = Err ParseError /\
  (let* text := write_file ex_emphasised in snd (read_str 51 text false))
  = Ok (norm_document (mkDocument [mkPackage (name_only "P") [ex_unit "A"; ex_unit "C"] []] 51)).
Proof. split; vm_compute; reflexivity. Qed.

(** ** C31 *)

(** The version is read back from the file, whatever the reader has read before. *)
Theorem C31_version_round_trip d : good_document d ->
  exists text, write_file d = Ok text /\
    forall rv stop, exists d', read_str rv text stop = (doc_schema_version d, Ok d') /\ doc_schema_version d' = doc_schema_version d.
Proof.
  intros G. destruct (C24_document_round_trip d G) as (t & W & R). exists t. split; auto. intros rv stop. exists (norm_document d). now rewrite R.
Qed.
(** In general: a root element that names a version makes reading independent of the history. *)
Theorem C31_isolation_partial root : has_version (x_attrs root) ->
  forall rv rv' stop, read_root rv stop root = read_root rv' stop root.
Proof. intros H rv rv' stop. unfold read_root. now rewrite (version_named _ rv rv' H). Qed.
(** A document saved with write_str has no version: the reader keeps the version of the last
    document it has read, for every document. *)
Theorem C31_isolation_refuted d : good_document d ->
  exists text, write_str d true = Ok text /\ forall rv stop, fst (read_str rv text stop) = rv.
Proof.
  intros G. destruct (bare_text d G) as (t & x & W & P & A & _). exists t. split; auto. intros rv stop. unfold read_str. rewrite P. unfold read_root. rewrite A. reflexivity.
Qed.
Example C31_example : has_version (root_attributes 7).
Proof.
  exists "xsi:schemaLocation", ("http://autosar.org/schema/r4.0 AUTOSAR_00007.xsd"). splits; [now left|now exists "xsi:"|].
  exists "http://autosar.org/schema/r4.0 ", "00007", "."%char, "". splits; try discriminate; try reflexivity. cbn. intuition discriminate.
Qed.
Example C31_large_version : search_version ("http://autosar.org/schema/r4.0 " ++ schema_file 123456) = Some 123456%N.
Proof. reflexivity. Qed.
Example C31_stale_example :
  (let* text := write_str (mkDocument [mkPackage (name_only "P") [] []] 48) true in snd (read_str 50 text true))
  = Ok (mkDocument [mkPackage (name_only "P") [] []] 50).
Proof. vm_compute. reflexivity. Qed.

(** ** C30 *)

Lemma kids_of_all t k1 ae te k k2 m :
  List.concat (map x_kids (findall t (k1 ++ Elem t ae te k m :: k2))) =
  List.concat (map x_kids (findall t k1)) ++ k ++ List.concat (map x_kids (findall t k2)).
Proof. rewrite findall_app, map_app, concat_app. unfold findall at 2. cbn [filter x_tag]. rewrite String.eqb_refl. reflexivity. Qed.
(** With stop_on_error off, a document is read exactly as if an element that does not parse, that
    has an unknown kind or that repeats a sibling's name were absent, at any depth. *)
Theorem C30_bad_element_as_if_absent_partial rv root root' :
  one_less_in_document (read_schema_version rv (x_attrs root)) root root' ->
  read_root rv false root = read_root rv false root'.
Proof.
  intros H. inversion H as [tag a t k1 k2 te ae before x x' after l0 l0' m m' T T' O E E']. subst. unfold read_root in *. cbn [x_attrs x_kids] in *.
  rewrite !kids_of_all. do 2 f_equal. rewrite !app_assoc, <- !(app_assoc _ (_ :: _)). cbn [app].
  rewrite (read_packages_one_less _ _ _ _ x x' _ T T' (one_less_same _ _ _ O)). reflexivity.
Qed.
(** Exactly what remains of the children of an ELEMENTS element: the elements that parse, of
    several with one name the first; unless reading raises something other than a parse error. *)
Theorem C30_tolerant_reading v ident kids :
  read_package_elements v false (mkPackage ident [] []) kids =
  match first_crash (map (outcome_of v) kids) with
  | Some e => Err e
  | None => Ok (mkPackage ident (first_of_each_name [] (goods (map (outcome_of v) kids))) [])
  end.
Proof. apply (tolerant_spec v (mkPackage ident [] []) kids []). reflexivity. Qed.
(** With stop_on_error on, reading succeeds iff every element of a known kind parses and no name
    is repeated, and then gives all of them in order. *)
Theorem C30_strict_reading v ident kids p :
  read_package_elements v true (mkPackage ident [] []) kids = Ok p <->
  (forall x, In x kids -> outcome_of v x = Unknown \/ exists e, outcome_of v x = Good e) /\
  NoDup (map element_name (goods (map (outcome_of v) kids))) /\
  p = mkPackage ident (goods (map (outcome_of v) kids)) [].
Proof.
  rewrite strict_spec. cbn [names_in map app]. split.
  - intros (A & B & _ & C). auto.
  - intros (A & B & C). splits; auto.
Qed.
(** The claim for every kind of failure is false: an exception other than ParseError and
    DuplicateElement ends the reading of the whole document even with stop_on_error off. *)
Theorem C30_other_failures_refuted v ident before x after e :
  outcome_of v x = Crash e -> first_crash (map (outcome_of v) before) = None ->
  read_package_elements v false (mkPackage ident [] []) (before ++ x :: after) = Err e.
Proof. intros C B. rewrite C30_tolerant_reading, map_app, first_crash_app, B. cbn [map first_crash]. now rewrite C. Qed.
(** So does any element of the three kinds that the reader knows but packages cannot hold, if it can be read. *)
Theorem C30_no_package_element_refuted v ident before x after :
  (x_tag x = "DATA-FILTER" /\ (exists e, read_data_filter v x = Ok e)) \/
  (x_tag x = "AUTOSAR-ENGINEERING-OBJECT" /\ (exists e, read_autosar_engineering_object v x = Ok e)) \/
  (x_tag x = "CODE" /\ (exists e, read_code v x = Ok e)) ->
  first_crash (map (outcome_of v) before) = None ->
  read_package_elements v false (mkPackage ident [] []) (before ++ x :: after) = Err AssertionError.
Proof.
  intros H. apply C30_other_failures_refuted. destruct H as [(T & e & R)|[(T & e & R)|(T & e & R)]]; unfold outcome_of, read_collectable; rewrite T; cbn [String.eqb Ascii.eqb Bool.eqb]; now rewrite R.
Qed.

Definition quote (s : string) : string := String (ascii_of_nat 34) (s ++ String (ascii_of_nat 34) "").
Definition file_with (units : string) : string :=
  "<AUTOSAR><AR-PACKAGES><AR-PACKAGE><SHORT-NAME>P</SHORT-NAME><ELEMENTS>" ++ units ++ "</ELEMENTS></AR-PACKAGE></AR-PACKAGES></AUTOSAR>".
Definition unit_text (n : string) : string := "<UNIT><SHORT-NAME>" ++ n ++ "</SHORT-NAME></UNIT>".
Definition plain_unit (n : string) : ARElement := AR_Unit (mkUnit (name_only n) None None None None).
(** A unit without name between two units; the same name twice; an element of unknown kind *)
Example C30_example :
  snd (read_str 51 (file_with (unit_text "A" ++ "<UNIT></UNIT>" ++ unit_text "B" ++ unit_text "A" ++ "<FOO/>")) false)
  = Ok (mkDocument [mkPackage (name_only "P") [plain_unit "A"; plain_unit "B"] []] 51) /\
  snd (read_str 51 (file_with (unit_text "A" ++ "<UNIT></UNIT>" ++ unit_text "B")) true) = Err ParseError /\
  snd (read_str 51 (file_with (unit_text "A" ++ "<FOO/>" ++ unit_text "A")) true) = Err DuplicateElement /\
  snd (read_str 51 (file_with (unit_text "A" ++ "<FOO/>" ++ unit_text "B")) true)
  = Ok (mkDocument [mkPackage (name_only "P") [plain_unit "A"; plain_unit "B"] []] 51).
Proof. repeat split; vm_compute; reflexivity. Qed.
(** A unit with an introduction, a factor that is no number, and a kind of object that is no element of packages *)
Example C30_refuted_example :
  snd (read_str 51 (file_with (unit_text "A" ++ "<UNIT><SHORT-NAME>B</SHORT-NAME><INTRODUCTION/></UNIT>")) false) = Err TypeError /\
  snd (read_str 51 (file_with (unit_text "A" ++ "<UNIT><SHORT-NAME>B</SHORT-NAME><FACTOR-SI-TO-UNIT>x</FACTOR-SI-TO-UNIT></UNIT>")) false) = Err ValueError /\
  snd (read_str 51 (file_with (unit_text "A" ++ "<DATA-FILTER/>")) false) = Err AssertionError.
Proof. repeat split; vm_compute; reflexivity. Qed.
Example C30_absent_example :
  match parse (file_with (unit_text "A" ++ "<UNIT></UNIT>" ++ unit_text "B")), parse (file_with (unit_text "A" ++ unit_text "B")) with
  | Ok root, Ok root' => one_less_in_document 51 root root'
  | _, _ => False
  end.
Proof.
  vm_compute.
  eapply (less_in_package 51 _ _ _ [] [] _ _ [] _ _ []); [reflexivity|reflexivity|].
  eapply (less_here 51 _ _ _ [_] [] _ _ [_]); [reflexivity|]. exact I.
Qed.

Print Assumptions C24_document_round_trip.
Print Assumptions C24_same_shape.
Print Assumptions C24_exact_round_trip.
Print Assumptions C24_string_round_trip.
Print Assumptions C30_no_package_element_refuted.
Print Assumptions C31_version_round_trip.
Print Assumptions C31_isolation_partial.
Print Assumptions C31_isolation_refuted.
Print Assumptions C30_bad_element_as_if_absent_partial.
Print Assumptions C30_tolerant_reading.
Print Assumptions C30_strict_reading.
Print Assumptions C30_other_failures_refuted.
