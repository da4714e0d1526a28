(** Building blocks of the writer and reader methods, and the classes every element shares:
    multi-language texts, documentation blocks, annotations, Referrable and Identifiable.
    Sources: /repo/src/autosar/xml/writer.py:442-948, /repo/src/autosar/xml/reader.py:443-1142,
    /repo/src/autosar/xml/element.py:176-300, 476-1085, /repo/src/autosar/xml/base.py:17-46.
    No proofs in this file. *)
From Verif Require Import Base MNames MNum MXml MEnum MRefTab MRef.

(** ** Writing *)

(** What a writer method adds to the document: a list of elements, or an exception. *)
Definition out := result (list wt).

(** Two statements, and a sequence of statements: the first exception ends it. *)
Definition andthen (a b : out) : out := let* x := a in let* y := b in Ok (x ++ y).
Fixpoint cat (l : list out) : out :=
  match l with [] => Ok [] | m :: r => andthen m (cat r) end.

(** self._add_content(tag, text) (writer.py:103-118); computing the text may raise. *)
Definition content (tag : string) (text : result string) : out := let* s := text in Ok [Leaf tag [] s].
(** self._add_content(tag) *)
Definition empty (tag : string) : out := Ok [Leaf tag [] ""].
(** self._add_child(tag, attr); body; self._leave_child() (writer.py:75-86) *)
Definition node (tag : string) (a : attrs) (body : out) : out := let* k := body in Ok [Node tag a k].
(** if value is not None: body(value) *)
Definition if_set {A} (o : option A) (body : A -> out) : out := match o with None => Ok [] | Some a => body a end.
(** if a list is not empty: body *)
Definition if_some {A} (l : list A) (body : out) : out := match l with [] => Ok [] | _ => body end.
(** for child in list: body(child) *)
Definition for_each {A} (l : list A) (body : A -> out) : out := cat (map body l).

(** ar_enum.enum_to_xml(value): the schema version is left at its default, autosar/base.py:5 *)
Definition enum_text {A} (m : enum_map A) (a : A) : result string := enum_to_xml m a 51.

(** Tests used by is_empty (xml/base.py:17-29): None, and the empty list. *)
Definition unset {A} (o : option A) : bool := match o with None => true | Some _ => false end.
Definition no_items {A} (l : list A) : bool := match l with [] => true | _ => false end.

(** ** Reading *)

(** xml_child = child_elements.get(tag); if xml_child is not None: value = read(xml_child)
    (reader.py:73-92) *)
Definition child {A} (tag : string) (kids : list xml) (read : xml -> result A) : result (option A) :=
  match get tag kids with None => Ok None | Some x => let* a := read x in Ok (Some a) end.
(** the same with value = xml_child.text *)
Definition child_text (tag : string) (kids : list xml) : result (option string) :=
  Ok (match get tag kids with None => None | Some x => text_opt x end).
(** for c in xml_child.findall(TAG): items.append(read(c)); no items without the container *)
Definition children {A} (container tag : string) (kids : list xml) (read : xml -> result A) : result (list A) :=
  match get container kids with None => Ok [] | Some x => mapM read (findall tag (x_kids x)) end.
(** for c in xml_child.findall('./*'): items.append(read(c)) *)
Definition children_any {A} (container : string) (kids : list xml) (read : xml -> result A) : result (list A) :=
  match get container kids with None => Ok [] | Some x => mapM read (x_kids x) end.

(** Readers of a text: int(None), float(None) and int(None, 0) raise TypeError
    (reader.py:443-475). *)
Definition rd_number (x : xml) : result pynum :=
  match text_opt x with None => Err TypeError | Some s => read_number s end.
Definition rd_integer (x : xml) : result Z :=
  match text_opt x with None => Err TypeError | Some s => read_integer s end.
(** int(xml_child.text) and float(xml_child.text) *)
Definition rd_int (x : xml) : result Z :=
  match text_opt x with
  | None => Err TypeError
  | Some s => match int10 s with Some z => Ok z | None => Err ValueError end
  end.
Definition rd_float (x : xml) : result pynum :=
  match text_opt x with
  | None => Err TypeError
  | Some s => match float_of s with Some f => Ok (NFloat f) | None => Err ValueError end
  end.
Definition rd_boolean (x : xml) : result bool := read_boolean (x_text x).
(** ar_element.PositiveIntegerValue(xml_child.text).value (element.py:141-173): None is neither
    a str nor an int: TypeError *)
Definition rd_positive (x : xml) : result Z :=
  match text_opt x with
  | None => Err TypeError
  | Some s => let* n := pos_validate (AText s) in Ok (Z.of_N n)
  end.
(** str(xml_child.text): the text None of an empty element becomes "None" *)
Definition rd_str (x : xml) : result string := Ok (match text_opt x with None => "None" | Some s => s end).
(** ar_enum.xml_to_enum(class, xml_child.text) with the default schema version; the text None is
    in no table *)
Definition rd_enum {A} (m : enum_map A) (x : xml) : result A := xml_to_enum m (x_text x) 51.

(** ** Text with inline elements (element.py:476-572; writer.py:586-592, 614-682;
    reader.py:720-725, 743-814) *)

(** attr.append((name, text)) when the value is set *)
Definition attr_text (name : string) (o : option string) : result attrs :=
  Ok (match o with None => [] | Some s => [(name, s)] end).
Definition attr_enum {A} (name : string) (m : enum_map A) (o : option A) : result attrs :=
  match o with None => Ok [] | Some a => let* s := enum_text m a in Ok [(name, s)] end.
Definition attr_cat (l : list (result attrs)) : result attrs :=
  let* ls := mapM (fun x => x) l in Ok (List.concat ls).

(** Break (element.py:476-482), EmphasisText (485-509), IndexEntry (512-523), Subscript (546-556),
    Superscript (559-572) and TechnicalTerm (526-543).  The texts are None when an empty element was read.
    Simplification: EmphasisText.elements holds at most one str, the only form its constructor
    accepts (element.py:505-509). *)
Inductive inline_elem :=
| IBreak
| IEmphasis (element : option string) (color : option string) (font : option EmphasisFont) (type : option EmphasisType)
| IIndexEntry (text : option string)
| ISubscript (text : option string)
| ISuperscript (text : option string)
| ITechnicalTerm (text : option string) (tex_render : option string) (type : option string).

(** A part of a text: str, or an inline element. *)
Inductive part := PText (s : string) | PInline (i : inline_elem).

(** isinstance tests. *)
Definition is_break (i : inline_elem) : bool := match i with IBreak => true | _ => false end.
Definition is_emphasis (i : inline_elem) : bool := match i with IEmphasis _ _ _ _ => true | _ => false end.
Definition is_index (i : inline_elem) : bool := match i with IIndexEntry _ => true | _ => false end.
Definition is_sub (i : inline_elem) : bool := match i with ISubscript _ => true | _ => false end.
Definition is_sup (i : inline_elem) : bool := match i with ISuperscript _ => true | _ => false end.
Definition is_term (i : inline_elem) : bool := match i with ITechnicalTerm _ _ _ => true | _ => false end.

(** _add_content asserts that the content is a str (writer.py:104) *)
Definition asserted (tag : string) (a : attrs) (text : option string) : result (string * attrs * string) :=
  match text with None => Err AssertionError | Some s => Ok (tag, a, s) end.

(** _write_break, _write_emphasis_text, _write_index_entry, _write_technical_term,
    _write_superscript, _write_subscript: writer.py:586-592, 614-682 *)
Definition write_inline (i : inline_elem) : result (string * attrs * string) :=
  match i with
  | IBreak => Ok ("BR", [], "")
  | IEmphasis e c f t =>
      let* a := attr_cat [attr_text "COLOR" c; attr_enum "FONT" em_EmphasisFont f; attr_enum "TYPE" em_EmphasisType t] in
      match e with None => Err NotImplementedError | Some s => Ok ("E", a, s) end
  | IIndexEntry t => asserted "IE" [] t
  | ISubscript t => asserted "SUB" [] t
  | ISuperscript t => asserted "SUP" [] t
  | ITechnicalTerm t x y =>
      let* a := attr_cat [attr_text "TEX-RENDER" x; attr_text "TYPE" y] in asserted "TT" a t
  end.

(** for part in elem.parts: ... (writer.py:706-719 and the like): the text before the first
    inline element, and the inline elements with the text after each.  [ok] tells which inline
    elements the writer method knows; others are a TypeError. *)
Fixpoint write_parts (ok : inline_elem -> bool) (parts : list part) : result (string * list mark) :=
  match parts with
  | [] => Ok ("", [])
  | PText s :: r => let* (t, ms) := write_parts ok r in Ok ((s ++ t)%string, ms)
  | PInline i :: r =>
      if ok i then
        let* (tag, a, text) := write_inline i in
        let* (t, ms) := write_parts ok r in Ok ("", mkMark tag a text t :: ms)
      else Err TypeError
  end.

(** _read_emphasis_text, reader.py:743-769.  Simplification: the schema version is not passed on;
    the tables of both enumerations are the same in every version. *)
Definition read_emphasis (x : xml) : result inline_elem :=
  let* f := match assoc "FONT" (x_attrs x) with None => Ok None | Some s => let* e := xml_to_enum em_EmphasisFont s 51 in Ok (Some e) end in
  let* t := match assoc "TYPE" (x_attrs x) with None => Ok None | Some s => let* e := xml_to_enum em_EmphasisType s 51 in Ok (Some e) end in
  match x_kids x with
  | [] => Ok (IEmphasis (text_opt x) (assoc "COLOR" (x_attrs x)) f t)
  | _ => Err NotImplementedError
  end.
(** _read_technical_term, reader.py:779-800 *)
Definition read_term (x : xml) : result inline_elem :=
  match x_kids x with
  | [] => Ok (ITechnicalTerm (text_opt x) (assoc "TEX-RENDER" (x_attrs x)) (assoc "TYPE" (x_attrs x)))
  | _ => Err ParseError
  end.

(** part appended to parts: the append methods raise TypeError for a part they do not know
    (element.py:594-601 and the like) *)
Definition append_inline (ok : inline_elem -> bool) (i : inline_elem) : result (list part) :=
  if ok i then Ok [PInline i] else Err TypeError.

(** The children of an element, each with the text after it (xml_child_elem.tail). *)
Fixpoint with_tails (kids : list xml) (tails : list string) : list (xml * string) :=
  match kids, tails with
  | [], _ => []
  | x :: k, [] => (x, "") :: with_tails k []
  | x :: k, t :: r => (x, t) :: with_tails k r
  end.

(** The loop of the _read_mixed_content_for_* methods (reader.py:857-875 and the like), [child]
    being its body for one child element: the text before the first child comes first, and after
    a child that is followed by text, [elem.append(xml_elem.text)] appends the text before the
    first child once more; None is not an accepted part. *)
Definition read_mixed (child : xml -> result (list part)) (x : xml) : result (list part) :=
  let* l := mapM (fun c => let* ps := child (fst c) in
                           if String.eqb (snd c) "" then Ok ps
                           else match text_opt x with None => Err TypeError | Some s => Ok (ps ++ [PText s]) end)
                 (with_tails (x_kids x) (x_tails x)) in
  Ok (match text_opt x with None => [] | Some s => [PText s] end ++ List.concat l).

(** ** Multi-language texts (element.py:575-743; writer.py:684-803; reader.py:816-935) *)

(** LanguageLongName, LanguageOverviewParagraph, LanguageParagraph, LanguageVerbatim: a language
    and parts.  The four classes are told apart by the tag of their line: L-4, L-2, L-1, L-5. *)
Record lang_text := mkLang { lt_language : Language; lt_parts : list part }.

(** The parts accepted by append: element.py:594-601 (L-4), 617-624 (L-2), 801-809 (L-1),
    887-895 (L-5).  Subscript is listed twice in the first three, Superscript not at all. *)
Definition admits (line : string) (i : inline_elem) : bool :=
  if String.eqb line "L-1" then is_break i || is_emphasis i || is_index i || is_sub i || is_term i
  else if String.eqb line "L-5" then is_break i || is_emphasis i || is_term i
  else is_term i || is_emphasis i || is_sub i || is_index i.

(** The constructors (element.py:644-651, 699-706, 830-837, 904-911): the parts are appended one by one *)
Definition new_lang (line : string) (l : Language) (parts : list part) : result lang_text :=
  let* ps := mapM (fun p => match p with PText s => Ok [PText s] | PInline i => append_inline (admits line) i end) parts in
  Ok (mkLang l (List.concat ps)).

(** The inline elements known to _write_language_*: writer.py:706-719 (L-4), 785-802 (L-2),
    815-832 (L-1), 845-856 (L-5) *)
Definition writes (line : string) (i : inline_elem) : bool :=
  if String.eqb line "L-4" then negb (is_break i)
  else if String.eqb line "L-5" then is_break i || is_emphasis i || is_term i
  else true.

(** _write_language_* (writer.py:696-857): the parts are written one after the other on one line *)
Definition write_lang (tag : string) (t : lang_text) : out :=
  let* l := enum_text em_Language (lt_language t) in
  let* (text, marks) := write_parts (writes tag) (lt_parts t) in
  Ok [Line tag [("L", l)] text marks].

(** The first if statement of the loop body of _read_mixed_content_for_*: reader.py:859-866 (L-4),
    916-925 (L-2), 970-979 (L-1), 1007-1010 (L-5) *)
Definition read_first (line : string) (x : xml) : result (list part) :=
  let t := x_tag x in
  if String.eqb t "BR" && negb (String.eqb line "L-4") then append_inline (admits line) IBreak
  else if String.eqb t "E" then let* i := read_emphasis x in append_inline (admits line) i
  else if String.eqb line "L-5" then Ok []
  else if String.eqb t "IE" then append_inline (admits line) (IIndexEntry (text_opt x))
  else if String.eqb t "SUB" then append_inline (admits line) (ISubscript (text_opt x))
  else if String.eqb t "SUP" then append_inline (admits line) (ISuperscript (text_opt x))
  else Ok [].

(** Elements reported and left out: reader.py:928 (L-2), 982-988 (L-1), 1013 (L-5) *)
Definition unsupported_inline (line : string) : list string :=
  if String.eqb line "L-2" then ["FT"; "TRACE-REF"; "XREF"]
  else if String.eqb line "L-1" then ["FT"; "STD"; "TRACE-REF"; "XDOC"; "XFILE"; "XREF"; "XREF-TARGET"]
  else if String.eqb line "L-5" then ["XREF"]
  else [].

(** The loop body up to the tail: the second if statement (reader.py:867-871, 926-932, 980-993,
    1011-1018) is not an elif, so it also runs for the elements handled by the first one *)
Definition read_inline (line : string) (x : xml) : result (list part) :=
  let* a := read_first line x in
  let* b := if String.eqb (x_tag x) "TT" then let* i := read_term x in append_inline (admits line) i
            else if existsb (String.eqb (x_tag x)) (unsupported_inline line) then Ok []
            else Err ParseError in
  Ok (a ++ b).

(** _read_language_* and _read_mixed_content_* (reader.py:829-1021): attribute L is required *)
Definition read_lang (line : string) (x : xml) : result lang_text :=
  match assoc "L" (x_attrs x) with
  | None => Err KeyError
  | Some l => let* lang := xml_to_enum em_Language l 51 in
              let* parts := read_mixed (read_inline line) x in
              Ok (mkLang lang parts)
  end.

(** MultilanguageLongName (tag of its lines: L-4) and MultiLanguageOverviewParagraph (L-2):
    writer.py:684-694, 730-742; reader.py:816-827, 877-890 *)
Definition write_langs (tag line : string) (l : list lang_text) : out :=
  node tag [] (for_each l (write_lang line)).
Definition read_langs (line : string) (x : xml) : result (list lang_text) :=
  mapM (read_lang line) (findall line (x_kids x)).

(** SingleLanguageUnitNames (element.py:971-999; writer.py:918-935; reader.py:1098-1126). *)
Definition SingleLanguageUnitNames := list part.
(** append, element.py:960-968 *)
Definition admits_unit (i : inline_elem) : bool := is_sub i || is_sup i.
(** SingleLanguageUnitNames(parts), element.py:977-984, of a list; a str is iterable, so it is
    appended character by character *)
Definition new_unit_names (parts : list part) : result SingleLanguageUnitNames :=
  let* ps := mapM (fun p => match p with PText s => Ok [PText s] | PInline i => append_inline admits_unit i end) parts in
  Ok (List.concat ps).
Definition new_unit_names_str (s : string) : result SingleLanguageUnitNames :=
  new_unit_names (map (fun c => PText (String c "")) (list_ascii_of_string s)).
(** __str__, element.py:986-999, 568-572: ["^" + None] is a TypeError *)
Definition unit_names_str (l : SingleLanguageUnitNames) : result string :=
  let* ps := mapM (fun p => match p with
    | PText s => Ok s
    | PInline (ISuperscript (Some s)) => Ok ("^" ++ s)%string
    | PInline (ISuperscript None) => Err TypeError
    | PInline _ => Err ValueError
    end) l in
  Ok (join "" ps).
(** _write_single_language_unit_names, writer.py:918-935 *)
Definition write_unit_names (tag : string) (parts : SingleLanguageUnitNames) : out :=
  let* (text, marks) := write_parts admits_unit parts in
  Ok [Line tag [] text marks].
(** _read_single_language_unit_names and _read_mixed_content_for_unit_names, reader.py:1098-1126 *)
Definition read_unit_inline (x : xml) : result (list part) :=
  if String.eqb (x_tag x) "SUB" then append_inline admits_unit (ISubscript (text_opt x))
  else if String.eqb (x_tag x) "SUP" then append_inline admits_unit (ISuperscript (text_opt x))
  else Err ParseError.
Definition read_unit_names (x : xml) : result SingleLanguageUnitNames := read_mixed read_unit_inline x.

(** ** Documentation blocks (element.py:746-1027; writer.py:594-612, 744-773, 859-905;
    reader.py:727-741, 1023-1096) *)

(** DocumentViewSelectable and Paginateable attributes *)
Record paginateable := mkPag {
  pg_semantic_information : option string;
  pg_view : option string;
  pg_page_break : option PageBreak;
  pg_keep_with_previous : option KeepWithPrevious }.

(** MultiLanguageParagraph, and MultiLanguageVerbatim *)
Inductive doc_item :=
| Paragraph (p : paginateable) (help_entry : option string) (lines : list lang_text)
| Verbatim (p : paginateable) (allow_break : option string) (float : option Float)
    (help_entry : option string) (page_wide : option PageWide) (lines : list lang_text).

(** DocumentationBlock *)
Definition DocumentationBlock := list doc_item.


(** _collect_document_view_selectable_attributes, _collect_paginateable_attributes, writer.py:884-905 *)
Definition pag_attrs (p : paginateable) : list (result attrs) :=
  [ attr_text "SI" (pg_semantic_information p); attr_text "VIEW" (pg_view p);
    attr_enum "BREAK" em_PageBreak (pg_page_break p);
    attr_enum "KEEP-WITH-PREVIOUS" em_KeepWithPrevious (pg_keep_with_previous p) ].

(** _write_multi_language_paragraph, writer.py:859-882; _write_multi_language_verbatim, writer.py:744-773 *)
Definition write_doc_item (i : doc_item) : out :=
  match i with
  | Paragraph p he lines =>
      let* a := attr_cat (pag_attrs p ++ [attr_text "HELP-ENTRY" he]) in
      node "P" a (for_each lines (write_lang "L-1"))
  | Verbatim p ab fl he pw lines =>
      let* a := attr_cat (pag_attrs p ++ [attr_text "ALLOW-BREAK" ab; attr_enum "FLOAT" em_Float fl;
                                          attr_text "HELP-ENTRY" he; attr_enum "PGWIDE" em_PageWide pw]) in
      node "VERBATIM" a (for_each lines (write_lang "L-5"))
  end.

(** _write_documentation_block, writer.py:594-612 *)
Definition write_doc (tag : string) (d : DocumentationBlock) : out :=
  match d with [] => empty tag | _ => node tag [] (for_each d write_doc_item) end.

(** attribute lookups, reader.py:1040-1096 *)
Definition get_enum {A} (name : string) (m : enum_map A) (a : attrs) : result (option A) :=
  match assoc name a with None => Ok None | Some s => let* v := xml_to_enum m s 51 in Ok (Some v) end.
Definition read_pag (a : attrs) : result paginateable :=
  let* pb := get_enum "BREAK" em_PageBreak a in
  let* kp := get_enum "KEEP-WITH-PREVIOUS" em_KeepWithPrevious a in
  Ok (mkPag (assoc "SI" a) (assoc "VIEW" a) pb kp).

(** _read_multi_language_paragraph, _read_multi_language_verbatim, reader.py:1023-1082 *)
Definition read_paragraph (x : xml) : result doc_item :=
  let a := x_attrs x in
  let* p := read_pag a in
  let* lines := read_langs "L-1" x in
  Ok (Paragraph p (assoc "HELP-ENTRY" a) lines).
Definition read_verbatim (x : xml) : result doc_item :=
  let a := x_attrs x in
  let* p := read_pag a in
  let* fl := get_enum "FLOAT" em_Float a in
  let* pw := get_enum "PGWIDE" em_PageWide a in
  let* lines := read_langs "L-5" x in
  Ok (Verbatim p (assoc "ALLOW-BREAK" a) fl (assoc "HELP-ENTRY" a) pw lines).

(** _read_documentation_block, reader.py:727-741: other children are reported and skipped *)
Fixpoint read_doc_items (kids : list xml) : result DocumentationBlock :=
  match kids with
  | [] => Ok []
  | x :: r =>
      if String.eqb (x_tag x) "P" then
        let* i := read_paragraph x in let* is := read_doc_items r in Ok (i :: is)
      else if String.eqb (x_tag x) "VERBATIM" then
        let* i := read_verbatim x in let* is := read_doc_items r in Ok (i :: is)
      else read_doc_items r
  end.
Definition read_doc (x : xml) : result DocumentationBlock := read_doc_items (x_kids x).

(** ** Annotations (element.py:1030-1055; writer.py:559-584, 907-916; reader.py:687-718) *)
Record Annotation := mkAnnotation {
  Annotation_label : option (list lang_text);
  Annotation_origin : option string;
  Annotation_text : option DocumentationBlock }.
Definition Annotation_is_empty (e : Annotation) : bool :=
  unset (Annotation_label e) && unset (Annotation_origin e) && unset (Annotation_text e).
Definition write_annotation (e : Annotation) : out :=
  if Annotation_is_empty e then empty "ANNOTATION" else
  node "ANNOTATION" [] (cat [
    if_set (Annotation_label e) (fun l => write_langs "LABEL" "L-4" l);
    if_set (Annotation_origin e) (fun s => content "ANNOTATION-ORIGIN" (Ok s));
    if_set (Annotation_text e) (fun d => write_doc "ANNOTATION-TEXT" d) ]).
Definition read_annotation (x : xml) : result Annotation :=
  let k := x_kids x in
  let* label := child "LABEL" k (read_langs "L-4") in
  let* origin := child_text "ANNOTATION-ORIGIN" k in
  let* text := child "ANNOTATION-TEXT" k read_doc in
  Ok (mkAnnotation label origin text).

(** _write_annotations (writer.py:573-584): an ANNOTATIONS element for every annotation *)
Definition write_annotations (l : list Annotation) : out :=
  match l with
  | [] => empty "ANNOTATIONS"
  | _ => for_each l (fun a => node "ANNOTATIONS" [] (write_annotation a))
  end.
(** _read_annotations (reader.py:696-703) *)
Definition read_annotations (x : xml) : result (list Annotation) :=
  mapM read_annotation (findall "ANNOTATION" (x_kids x)).

(** ** AdminData (element.py:336-343): a list of one-entry dicts {GID: {GID: text}} *)
Definition AdminData := option (list (string * (string * option string))).

(** _write_admin_data (writer.py:489-494) writes nothing *)
Definition write_admin_data (d : AdminData) : out := Ok [].

(** _read_admin_data_sd, _sdg, _sdgs (reader.py:552-577).  find of a missing SD gives None, whose
    attribute attrib does not exist. *)
Definition read_sdg (x : xml) : result (string * (string * option string)) :=
  match assoc "GID" (x_attrs x) with
  | None => Err KeyError
  | Some g =>
    match get "SD" (x_kids x) with
    | None => Err AttributeError
    | Some sd => match assoc "GID" (x_attrs sd) with
                 | None => Err KeyError
                 | Some k => Ok (g, (k, text_opt sd))
                 end
    end
  end.
(** _read_admin_data (reader.py:537-550): len(None) raises TypeError when there is no SDGS *)
Definition read_admin_data (x : xml) : result AdminData :=
  match get "SDGS" (x_kids x) with
  | None => Err TypeError
  | Some s => match x_kids s with
              | [] => Ok None
              | _ => let* l := mapM read_sdg (findall "SDG" (x_kids s)) in Ok (Some l)
              end
  end.

(** ** Referrable, MultiLanguageReferrable, Identifiable (element.py:178-280) *)

(** The attributes of an Identifiable.  The attribute parent is not part of an element's content
    (MHeap.v models it).  A name of None is represented by "". *)
Record identifiable := mkIdent {
  id_name : string;
  id_long_name : option (list lang_text);
  id_desc : option (list lang_text);
  id_category : option string;
  id_admin_data : option AdminData;
  id_introduction : option DocumentationBlock;
  id_annotations : option (list Annotation);
  id_uuid : option string }.

(** _write_referrable, _write_multilanguage_referrable, writer.py:449-462 *)
Definition write_referrable (e : identifiable) : out := content "SHORT-NAME" (Ok (id_name e)).
Definition write_multilanguage_referrable (e : identifiable) : out :=
  if_set (id_long_name e) (fun l => write_langs "LONG-NAME" "L-4" l).

(** _collect_identifiable_attributes, writer.py:464-469 *)
Definition identifiable_attributes (e : identifiable) : attrs :=
  match id_uuid e with None => [] | Some u => [("UUID", u)] end.

(** _write_identifiable, writer.py:471-485: a category of "" and an empty annotation list are
    falsy *)
Definition write_identifiable (e : identifiable) : out := cat [
  if_set (id_desc e) (fun d => write_langs "DESC" "L-2" d);
  if_set (id_category e) (fun c => if String.eqb c "" then Ok [] else content "CATEGORY" (Ok c));
  if_set (id_admin_data e) write_admin_data;
  if_set (id_introduction e) (fun d => write_doc "INTRODUCTION" d);
  if_set (id_annotations e) (fun l => if_some l (write_annotations l)) ].

(** _read_referrable, reader.py:479-493: keys name and long_name *)
Definition read_referrable (kids : list xml) : result (string * option (list lang_text)) :=
  match get "SHORT-NAME" kids with
  | None => Err ParseError
  | Some x => let* l := child "LONG-NAME" kids (read_langs "L-4") in Ok (x_text x, l)
  end.
(** _read_multilanguage_referrable, reader.py:495-502 *)
Definition read_multilanguage_referrable (kids : list xml) : result (option (list lang_text)) :=
  child "LONG-NAME" kids (read_langs "L-4").
(** _read_identifiable, reader.py:504-531.  _read_multi_language_overview_paragraph asserts the tag,
    which is DESC here. *)
Definition read_identifiable (a : attrs) (kids : list xml) (name : string) (long_name : option (list lang_text))
  : result identifiable :=
  let* desc := child "DESC" kids (read_langs "L-2") in
  let* category := child_text "CATEGORY" kids in
  let* admin := child "ADMIN-DATA" kids read_admin_data in
  let* intro := child "INTRODUCTION" kids read_doc in
  let* annot := child "ANNOTATIONS" kids read_annotations in
  Ok (mkIdent name long_name desc category admin intro annot (assoc "UUID" a)).

(** The three calls every reader of an Identifiable makes, in this order *)
Definition read_ident (a : attrs) (kids : list xml) : result identifiable :=
  let* (name, _) := read_referrable kids in
  let* long_name := read_multilanguage_referrable kids in
  read_identifiable a kids name long_name.

(** Identifiable.__init__ (element.py:231-258) applied to what was read: admin_data is accepted
    but not stored; the keywords introduction and annotations are passed on to
    MultiLanguageReferrable.__init__, which does not know them: TypeError. *)
Definition new_identifiable (d : identifiable) : result identifiable :=
  match id_introduction d, id_annotations d with
  | None, None => Ok (mkIdent (id_name d) (id_long_name d) (id_desc d) (id_category d) None None None (id_uuid d))
  | _, _ => Err TypeError
  end.

(** A Referrable that is not an Identifiable (ImplementationProps, element.py:1861-1871): its
    __init__ does not know the keyword long_name. *)
Definition new_referrable (d : string * option (list lang_text)) : result string :=
  match snd d with None => Ok (fst d) | Some _ => Err TypeError end.
