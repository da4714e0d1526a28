(** When an object can be saved: what has a text.  Nothing here mentions the writer. *)
From Coq Require Import QArith.
From Verif Require Import Base MNum SNum MXml MEnum MRefTab MRef MCodec SCodec MElem0 MElemA.
Open Scope Z_scope.

(** [z] is the value of the number [n]. *)
Definition whole_number (n : pynum) (z : Z) : Prop := match meaning n with Fin q => (q == inject_Z z)%Q | _ => False end.
(** Where a float is expected, whole numbers from 10^28 on have no text; where a number is expected, ints have one always. *)
Definition float_has_text (n : pynum) : Prop := forall z, whole_number n z -> Z.abs z < 10 ^ 28.
Definition number_has_text (n : pynum) : Prop := match n with NInt _ => True | NFloat _ => float_has_text n end.
(** A number with a format: only ints have hexadecimal and binary texts; every number has a scientific one. *)
Definition value_has_text (n : number) : Prop :=
  match n with
  | Bare n => number_has_text n
  | Wrapped n => match nv_format n with
                 | FMT_DEFAULT | FMT_DECIMAL => number_has_text (nv_value n)
                 | FMT_HEXADECIMAL | FMT_BINARY => exists z, nv_value n = NInt z
                 | FMT_SCIENTIFIC => True
                 end
  end.

(** An inline element that has a text; a line break has none. *)
Definition inline_has_text (i : inline_elem) : Prop :=
  match i with
  | IBreak => True
  | IEmphasis t _ _ _ | IIndexEntry t | ISubscript t | ISuperscript t | ITechnicalTerm t _ _ => t <> None
  end.
(** A text with inline elements, of which those of the class [c] are allowed. *)
Definition parts_savable (c : inline_elem -> Prop) (parts : list part) : Prop :=
  forall i, In (PInline i) parts -> c i /\ inline_has_text i.
(** Long names and labels hold no line breaks; verbatim texts only line breaks, emphasis and technical terms; descriptions and paragraphs
    everything; unit names sub- and superscripts. *)
Definition in_long_name (i : inline_elem) : Prop := i <> IBreak.
Definition in_verbatim (i : inline_elem) : Prop :=
  match i with IBreak | IEmphasis _ _ _ _ | ITechnicalTerm _ _ _ => True | _ => False end.
Definition in_unit_name (i : inline_elem) : Prop := match i with ISubscript _ | ISuperscript _ => True | _ => False end.
Definition anywhere (i : inline_elem) : Prop := True.
Definition long_name_savable (l : list lang_text) : Prop := all_ok (fun t => parts_savable in_long_name (lt_parts t)) l.
Definition paragraph_savable (l : list lang_text) : Prop := all_ok (fun t => parts_savable anywhere (lt_parts t)) l.
Definition names_savable (l : SingleLanguageUnitNames) : Prop := parts_savable in_unit_name l.
Definition doc_savable (d : DocumentationBlock) : Prop :=
  all_ok (fun i => match i with
                   | Paragraph _ _ lines => paragraph_savable lines
                   | Verbatim _ _ _ _ _ lines => all_ok (fun t => parts_savable in_verbatim (lt_parts t)) lines
                   end) d.
Definition annotation_savable (e : Annotation) : Prop :=
  opt_ok long_name_savable (Annotation_label e) /\ opt_ok doc_savable (Annotation_text e).
Definition ident_savable (e : identifiable) : Prop :=
  opt_ok long_name_savable (id_long_name e) /\ opt_ok paragraph_savable (id_desc e) /\
  opt_ok doc_savable (id_introduction e) /\ opt_ok (all_ok annotation_savable) (id_annotations e).
