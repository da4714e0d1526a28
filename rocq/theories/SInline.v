(** Specification of formatted text: which parts a line accepts, the markup of the parts, and which
    lines and unit names are read back.  Mentions neither the writer nor the reader. *)
From Verif Require Import Base MNum MXml SXml MEnum MCodec SCodec.
Open Scope list_scope.

(** ** What can be created *)

(** The four kinds of lines. *)
Inductive a_line : string -> Prop :=
| line_of_long_name : a_line "L-4"
| line_of_overview : a_line "L-2"
| line_of_paragraph : a_line "L-1"
| line_of_verbatim : a_line "L-5".

(** The inline elements a line accepts: terms and emphasis everywhere, line breaks in paragraphs
    and verbatim text, index entries and subscripts except in verbatim text; superscripts nowhere. *)
Inductive may_contain : string -> inline_elem -> Prop :=
| has_term line t x y : may_contain line (ITechnicalTerm t x y)
| has_emphasis line e c f t : may_contain line (IEmphasis e c f t)
| has_break line : line = "L-1" \/ line = "L-5" -> may_contain line IBreak
| has_index line t : line <> "L-5" -> may_contain line (IIndexEntry t)
| has_sub line t : line <> "L-5" -> may_contain line (ISubscript t).

(** ** Markup *)

(** An element without children. *)
Definition simple (tag : string) (a : attrs) (text : string) : string :=
  match text with
  | "" => start tag a ++ "/>"
  | _ => start tag a ++ ">" ++ text ++ "</" ++ tag ++ ">"
  end%string.
(** An attribute that may be missing. *)
Definition attribute (name : string) (o : option string) : attrs := match o with None => [] | Some s => [(name, s)] end.
Definition font_text (f : EmphasisFont) : string := match f with EmphasisFont_DEFAULT => "DEFAULT" | EmphasisFont_MONO => "MONO" end.
Definition type_text (t : EmphasisType) : string :=
  match t with EmphasisType_BOLD => "BOLD" | EmphasisType_BOLDITALIC => "BOLDITALIC" | EmphasisType_ITALIC => "ITALIC" | EmphasisType_PLAIN => "PLAIN" end.
(** [m] is the markup of a part. *)
Inductive markup : part -> string -> Prop :=
| markup_text s : markup (PText s) s
| markup_break : markup (PInline IBreak) "<BR/>"
| markup_emphasis s c f t :
    markup (PInline (IEmphasis (Some s) c f t))
           (simple "E" (attribute "COLOR" c ++ attribute "FONT" (option_map font_text f) ++ attribute "TYPE" (option_map type_text t)) s)
| markup_index s : markup (PInline (IIndexEntry (Some s))) (simple "IE" [] s)
| markup_sub s : markup (PInline (ISubscript (Some s))) (simple "SUB" [] s)
| markup_sup s : markup (PInline (ISuperscript (Some s))) (simple "SUP" [] s)
| markup_term s x y :
    markup (PInline (ITechnicalTerm (Some s) x y)) (simple "TT" (attribute "TEX-RENDER" x ++ attribute "TYPE" y) s).

(** ** Texts that need no escaping *)
Definition clean_inline (i : inline_elem) : Prop :=
  match i with
  | IBreak => True
  | IEmphasis s c _ _ => opt_ok safe_text s /\ opt_ok safe_attr c
  | IIndexEntry s | ISubscript s | ISuperscript s => opt_ok safe_text s
  | ITechnicalTerm s x y => opt_ok safe_text s /\ opt_ok safe_attr x /\ opt_ok safe_attr y
  end.
(** All the text between two inline elements, together, needs no escaping. *)
Fixpoint clean_from (before : string) (parts : list part) : Prop :=
  match parts with
  | [] => safe_text before
  | PText s :: r => clean_from (before ++ s) r
  | PInline i :: r => safe_text before /\ clean_inline i /\ clean_from "" r
  end.
Definition clean (parts : list part) : Prop := clean_from "" parts.

(** ** What is read back *)

(** A technical term with a text, a script with a text. *)
Definition a_term (i : inline_elem) : Prop := exists s x y, s <> "" /\ i = ITechnicalTerm (Some s) x y.
Definition a_script (i : inline_elem) : Prop := exists s, s <> "" /\ (i = ISubscript (Some s) \/ i = ISuperscript (Some s)).
(** A text, possibly empty, then inline elements of a kind; after each of them nothing, or the first text
    once more. *)
Inductive repeats (kind : inline_elem -> Prop) (first : string) : list part -> Prop :=
| repeats_nil : repeats kind first []
| repeats_plain i r : kind i -> repeats kind first r -> repeats kind first (PInline i :: r)
| repeats_again i r : kind i -> first <> "" -> repeats kind first r -> repeats kind first (PInline i :: PText first :: r).
Inductive made_of (kind : inline_elem -> Prop) : list part -> Prop :=
| made_bare r : repeats kind "" r -> made_of kind r
| made_first s r : s <> "" -> repeats kind s r -> made_of kind (PText s :: r).
