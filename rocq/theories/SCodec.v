(** Specification vocabulary of the element round trips: which values XML text can carry, and what
    an object looks like after it was written and read. *)
From Verif Require Import Base MNum SNum MXml SXml MEnum MRefTab MRef SEnum MCodec.

(** An optional value that, if set, satisfies a condition; every item of a list does. *)
Definition opt_ok {A} (P : A -> Prop) (o : option A) : Prop := match o with None => True | Some a => P a end.
Section AllOk.
  Context {A : Type} (P : A -> Prop).
  Fixpoint all_ok (l : list A) : Prop := match l with [] => True | a :: r => P a /\ all_ok r end.
End AllOk.

(** Texts: not empty (an empty element has no text), and nothing that needs escaping. *)
Definition good_text (s : string) : Prop := s <> "" /\ safe_text s.

(** Floats: those below 10^28 (the writer raises an exception beyond). *)
Definition good_float (n : pynum) : Prop := exists f, n = NFloat f /\ python_float f /\ below_1e28 n.
(** Such floats other than the negative zero, which is read back as 0.0 where the reader goes
    through an int. *)
Definition good_real (n : pynum) : Prop := good_float n /\ n <> NFloat (FFin true 0 0).
(** Numbers: ints, and such floats. *)
Definition good_number (n : pynum) : Prop := match n with NInt _ => True | NFloat _ => good_float n end.
(** A float without fraction is read back as the equal int; everything else is unchanged. *)
Definition reread (n : pynum) : pynum :=
  match n with
  | NFloat (FFin neg c e) => if (0 <=? e)%Z then NInt (signed neg (c * 10 ^ Z.to_N e)) else n
  | _ => n
  end.

(** References to an accepted kind of element. *)
Definition good_ref (c : ref_class) (r : ref) : Prop := valid_ref c r /\ safe_text (rf_value r).

(** Text with inline elements that is read back: a text [s], possibly empty, then inline elements;
    after each of them nothing, or [s] once more. *)
Definition pieces (s : string) (l : list (inline_elem * bool)) : list part :=
  (match s with "" => [] | _ => [PText s] end)
  ++ flat_map (fun p : inline_elem * bool => PInline (fst p) :: (if snd p then [PText s] else [])) l.
Definition good_parts (ok : inline_elem -> Prop) (parts : list part) : Prop :=
  exists s l, parts = pieces s l /\ safe_text s /\ Forall (fun p => ok (fst p) /\ (snd p = true -> s <> "")) l.

(** In texts in a language, only technical terms are read back. *)
Definition good_term (i : inline_elem) : Prop :=
  match i with
  | ITechnicalTerm (Some t) x y => good_text t /\ opt_ok safe_attr x /\ opt_ok safe_attr y
  | _ => False
  end.
Definition good_lang (t : lang_text) : Prop := good_parts good_term (lt_parts t).

(** In unit names, subscripts and superscripts.  Adjacent texts are read back as one. *)
Definition good_script (i : inline_elem) : Prop :=
  match i with ISubscript (Some t) | ISuperscript (Some t) => good_text t | _ => False end.
Fixpoint merged (parts : SingleLanguageUnitNames) : SingleLanguageUnitNames :=
  match parts with
  | [] => []
  | PInline i :: r => PInline i :: merged r
  | PText s :: r =>
      match s, merged r with
      | "", m => m
      | _, PText t :: m => PText (s ++ t) :: m
      | _, m => PText s :: m
      end
  end.
Definition good_names (parts : SingleLanguageUnitNames) : Prop := good_parts good_script (merged parts).

(** Documentation. *)
Definition good_pag (p : paginateable) : Prop :=
  opt_ok safe_attr (pg_semantic_information p) /\ opt_ok safe_attr (pg_view p).
Definition good_doc_item (i : doc_item) : Prop :=
  match i with
  | Paragraph p he lines => good_pag p /\ opt_ok safe_attr he /\ all_ok good_lang lines
  | Verbatim p ab _ he _ lines => good_pag p /\ opt_ok safe_attr ab /\ opt_ok safe_attr he /\ all_ok good_lang lines
  end.
Definition good_doc (d : DocumentationBlock) : Prop := all_ok good_doc_item d.
Definition good_annotation (e : Annotation) : Prop :=
  opt_ok (all_ok good_lang) (Annotation_label e) /\ opt_ok good_text (Annotation_origin e) /\ opt_ok good_doc (Annotation_text e).

(** Identifiable elements without administrative data, introduction and annotations. *)
Definition good_ident (e : identifiable) : Prop :=
  good_text (id_name e) /\ opt_ok (all_ok good_lang) (id_long_name e) /\ opt_ok (all_ok good_lang) (id_desc e) /\
  opt_ok good_text (id_category e) /\ id_admin_data e = None /\ id_introduction e = None /\ id_annotations e = None /\
  opt_ok safe_attr (id_uuid e).
(** ... and without UUID *)
Definition good_ident_no_uuid (e : identifiable) : Prop := good_ident e /\ id_uuid e = None.

(** Writing an object gives one element, and reading that element gives [a]: for every indentation
    [step] and nesting depth [d]. *)
Definition w_tag (w : wt) : string := match w with Leaf t _ _ => t | Line t _ _ _ => t | Node t _ _ => t end.
Definition carries {A} (tag : string) (m : out) (read : xml -> result A) (a : A) : Prop :=
  exists w, m = Ok [w] /\ w_tag w = tag /\ safe w /\ forall step d, read (element step d w) = Ok a.
