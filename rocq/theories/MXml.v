(** Model of ARXML text: the line writer, an XML parser for the text it produces (standing for
    lxml), and the element tree operations the reader uses.
    Sources: /repo/src/autosar/xml/writer.py:22-125, /repo/src/autosar/xml/reader.py:53-105.
    Strings are UTF-8 byte strings.  No proofs in this file. *)
From Verif Require Import Base MNames MNum.

(** ** What the writer methods emit *)

(** Attributes: [TupleList] (writer.py:20). *)
Definition attrs := list (string * string).

(** An inline element and the text after it: [_add_content(tag, text, attr, inline=True)]
    (writer.py:103-118), then [_add_inline_text] (writer.py:72-73). *)
Record mark := mkMark { mk_tag : string; mk_attrs : attrs; mk_text : string; mk_tail : string }.

(** One element as the writer methods emit it: [_add_content(tag, text, attr)] (writer.py:103-118),
    [_begin_line(tag, attr) ... _end_line(tag)] (writer.py:88-101) around text and inline elements,
    or [_add_child(tag, attr) ... _leave_child()] (writer.py:75-86) around the children.
    Simplification: the calls of a writer method are represented by the tree they bracket;
    [calls] below gives the sequence of calls back, with adjacent inline texts written in one call. *)
Inductive wt :=
| Leaf (tag : string) (a : attrs) (text : string)
| Line (tag : string) (a : attrs) (text : string) (marks : list mark)
| Node (tag : string) (a : attrs) (kids : list wt).

(** The calls of the line writer. *)
Inductive call :=
| CLine (text : string)                                     (* _add_line *)
| CChild (tag : string) (a : attrs)                         (* _add_child *)
| CLeave                                                    (* _leave_child *)
| CContent (tag : string) (text : string) (a : attrs)       (* _add_content *)
| CBegin (tag : string) (a : attrs)                         (* _begin_line *)
| CInline (text : string)                                   (* _add_inline_text *)
| CInlineContent (tag : string) (text : string) (a : attrs) (* _add_content, inline=True *)
| CEnd (tag : string).                                      (* _end_line *)

(** The sequence of calls of a writer method. *)
Fixpoint calls (w : wt) : list call :=
  match w with
  | Leaf tag a text => [CContent tag text a]
  | Line tag a text marks =>
      CBegin tag a :: CInline text
      :: List.concat (map (fun m => [CInlineContent (mk_tag m) (mk_text m) (mk_attrs m); CInline (mk_tail m)]) marks)
      ++ [CEnd tag]
  | Node tag a kids => CChild tag a :: List.concat (map calls kids) ++ [CLeave]
  end.

(** ** The line writer (writer.py:22-125) *)

(** State of _XMLWriter: text written so far, line number, indentation level, tag stack (top
    first).  indentation_str is always level * step spaces (writer.py:52-64). *)
Record xw := mkXW { x_out : string; x_line : nat; x_level : Z; x_stack : list string }.

(** _str_open, writer.py:34-39 *)
Definition xw_open : xw := mkXW "" 1 0 [].

(** [' ' * n] *)
Fixpoint spaces (n : nat) : string := match n with O => "" | S k => String " "%char (spaces k) end.

(** Newline as a string. *)
Definition newline : string := String (ascii_of_nat 10) "".

(** Quotation mark as a string. *)
Definition quote : string := String (ascii_of_nat 34) "".

(** indentation_str, writer.py:52-64; a negative repetition count gives the empty string *)
Definition indent_str (step : nat) (level : Z) : string := spaces (Z.to_nat level * step).

(** _add_line, writer.py:66-71 *)
Definition add_line (step : nat) (s : xw) (text : string) : xw :=
  mkXW (x_out s ++ (if Nat.ltb 1 (x_line s) then newline else "") ++ indent_str step (x_level s) ++ text)%string
       (S (x_line s)) (x_level s) (x_stack s).

(** _attr_to_str, writer.py:120-125 *)
Definition attr_to_str (a : attrs) : string :=
  join " " (map (fun p => (fst p ++ "=" ++ quote ++ snd p ++ quote)%string) a).

(** Start of a start tag: [<tag] or [<tag attr...] *)
Definition tag_open (tag : string) (a : attrs) : string :=
  match a with
  | [] => ("<" ++ tag)%string
  | _ => ("<" ++ tag ++ " " ++ attr_to_str a)%string
  end.

(** _add_child, writer.py:76-82 *)
Definition add_child (step : nat) (s : xw) (tag : string) (a : attrs) : xw :=
  let s' := add_line step s (tag_open tag a ++ ">")%string in
  mkXW (x_out s') (x_line s') (x_level s' + 1) (tag :: x_stack s').

(** _leave_child, writer.py:84-87; popping an empty stack is an IndexError *)
Definition leave_child (step : nat) (s : xw) : result xw :=
  match x_stack s with
  | [] => Err IndexError
  | tag :: r => Ok (add_line step (mkXW (x_out s) (x_line s) (x_level s - 1) r) ("</" ++ tag ++ ">")%string)
  end.

(** The text of an element without children, writer.py:105-114 *)
Definition content_str (tag text : string) (a : attrs) : string :=
  match text with
  | "" => tag_open tag a ++ "/>"
  | _ => tag_open tag a ++ ">" ++ text ++ "</" ++ tag ++ ">"
  end%string.

(** _add_content, writer.py:103-118, not inline *)
Definition add_content (step : nat) (s : xw) (tag text : string) (a : attrs) : xw :=
  add_line step s (content_str tag text a).

(** _add_inline_text, writer.py:72-73 *)
Definition add_inline_text (s : xw) (text : string) : xw :=
  mkXW (x_out s ++ text)%string (x_line s) (x_level s) (x_stack s).

(** _begin_line, writer.py:88-97 *)
Definition begin_line (step : nat) (s : xw) (tag : string) (a : attrs) : xw :=
  add_inline_text
    (mkXW (x_out s ++ (if Nat.ltb 1 (x_line s) then newline else "") ++ indent_str step (x_level s))%string
          (S (x_line s)) (x_level s) (x_stack s))
    (tag_open tag a ++ ">")%string.

(** _end_line, writer.py:99-101 *)
Definition end_line (s : xw) (tag : string) : xw := add_inline_text s ("</" ++ tag ++ ">")%string.

(** Executing calls. *)
Definition do_call (step : nat) (s : xw) (c : call) : result xw :=
  match c with
  | CLine t => Ok (add_line step s t)
  | CChild tag a => Ok (add_child step s tag a)
  | CLeave => leave_child step s
  | CContent tag text a => Ok (add_content step s tag text a)
  | CBegin tag a => Ok (begin_line step s tag a)
  | CInline t => Ok (add_inline_text s t)
  | CInlineContent tag text a => Ok (add_inline_text s (content_str tag text a))
  | CEnd tag => Ok (end_line s tag)
  end.
Fixpoint do_calls (step : nat) (s : xw) (l : list call) : result xw :=
  match l with
  | [] => Ok s
  | c :: r => let* s' := do_call step s c in do_calls step s' r
  end.

(** write_str_elem, writer.py:417-434, of an element whose writer method emits [w] *)
Definition render (step : nat) (w : wt) : result string :=
  let* s := do_calls step xw_open (calls w) in Ok (x_out s).

(** write_str / write_file, writer.py:401-415, 498-510: the XML declaration, then the root *)
Definition declaration : string :=
  ("<?xml version=" ++ quote ++ "1.0" ++ quote ++ " encoding=" ++ quote ++ "utf-8" ++ quote ++ "?>")%string.
Definition render_doc (step : nat) (w : wt) : result string :=
  let* s := do_calls step xw_open (CLine declaration :: calls w) in Ok (x_out s).

(** ** Parsed elements *)

(** An lxml element: tag, attributes, text before the first child ("" stands for None),
    children, and the text after each child ([tail] of the child in lxml; here kept beside
    the children, in their order). *)
Inductive xml := Elem (tag : string) (a : attrs) (text : string) (kids : list xml) (tails : list string).

(** Accessors. *)
Definition x_tag (x : xml) : string := match x with Elem t _ _ _ _ => t end.
Definition x_attrs (x : xml) : attrs := match x with Elem _ a _ _ _ => a end.
Definition x_text (x : xml) : string := match x with Elem _ _ t _ _ => t end.
Definition x_kids (x : xml) : list xml := match x with Elem _ _ _ k _ => k end.
Definition x_tails (x : xml) : list string := match x with Elem _ _ _ _ l => l end.

(** ** XML parser: XML 1.0 as lxml reads it, without document types (and the entities they declare)
    and with UTF-8 as the only encoding; both are rejected, bytes are not checked to be UTF-8.
    Namespaces are left to the users of this file. *)

(** White space: space, tab, newline, carriage return. *)
Definition xml_ws (c : ascii) : bool :=
  let n := nat_of_ascii c in (Nat.eqb n 32 || Nat.eqb n 9 || Nat.eqb n 10 || Nat.eqb n 13)%bool.

(** Characters that may not occur in a document: control characters other than white space. *)
Definition xml_bad (c : ascii) : bool := Nat.ltb (nat_of_ascii c) 32 && negb (xml_ws c).

(** Characters of names and first characters of names (all bytes of characters beyond ASCII). *)
Definition name_start (c : ascii) : bool :=
  let n := nat_of_ascii c in
  ((Nat.leb 65 n && Nat.leb n 90) || (Nat.leb 97 n && Nat.leb n 122) || Nat.leb 128 n
   || Ascii.eqb c "_" || Ascii.eqb c ":")%bool%char.
Definition name_char (c : ascii) : bool :=
  let n := nat_of_ascii c in
  (name_start c || (Nat.leb 48 n && Nat.leb n 57) || Ascii.eqb c "-" || Ascii.eqb c ".")%bool%char.

(** Longest prefix of characters satisfying [p], and the rest. *)
Fixpoint span (p : ascii -> bool) (s : string) : string * string :=
  match s with
  | "" => ("", "")
  | String c r => if p c then let (a, b) := span p r in (String c a, b) else ("", s)
  end.

(** A name, and the rest. *)
Definition parse_name (s : string) : option (string * string) :=
  match span name_char s with
  | (String c n, r) => if name_start c then Some (String c n, r) else None
  | _ => None
  end.

(** What comes before the next [p], and what follows it; control characters may not occur. *)
Fixpoint upto (p s : string) : option (string * string) :=
  match strip_prefix p s with
  | Some r => Some ("", r)
  | None =>
    match s with
    | "" => None
    | String c r => if xml_bad c then None
                    else match upto p r with Some (t, r') => Some (String c t, r') | None => None end
    end
  end.

(** The bytes of a character in UTF-8. *)
Definition utf8_byte (n : N) : ascii := ascii_of_N n.
Definition utf8 (n : N) : string :=
  (if N.ltb n 128 then String (utf8_byte n) ""
   else if N.ltb n 2048 then String (utf8_byte (192 + n / 64)) (String (utf8_byte (128 + n mod 64)) "")
   else if N.ltb n 65536 then
     String (utf8_byte (224 + n / 4096)) (String (utf8_byte (128 + n / 64 mod 64)) (String (utf8_byte (128 + n mod 64)) ""))
   else String (utf8_byte (240 + n / 262144)) (String (utf8_byte (128 + n / 4096 mod 64))
          (String (utf8_byte (128 + n / 64 mod 64)) (String (utf8_byte (128 + n mod 64)) ""))))%N.

(** The characters a document may contain. *)
Definition xml_char (n : N) : bool :=
  (N.eqb n 9 || N.eqb n 10 || N.eqb n 13 || (N.leb 32 n && N.leb n 55295)
   || (N.leb 57344 n && N.leb n 65533) || (N.leb 65536 n && N.leb n 1114111))%N.

(** The value of a digit. *)
Definition digit_of (base : N) (c : ascii) : option N :=
  let n := N_of_ascii c in
  let v := (if N.leb 48 n && N.leb n 57 then n - 48
            else if N.leb 97 n && N.leb n 102 then n - 87
            else if N.leb 65 n && N.leb n 70 then n - 55
            else 16)%N%bool in
  if N.ltb v base then Some v else None.

(** The digits of a character reference, up to ';'. *)
Fixpoint ref_digits (base acc : N) (s : string) : option (N * string) :=
  match s with
  | "" => None
  | String c r =>
    match digit_of base c with
    | None => None
    | Some v =>
      match strip_prefix ";" r with
      | Some r' => Some (base * acc + v, r')%N
      | None => ref_digits base (base * acc + v)%N r
      end
    end
  end.

(** References to predefined entities and to characters by number: the text after '&'. *)
Definition parse_reference (s : string) : option (string * string) :=
  match strip_prefix "lt;" s with
  | Some r => Some ("<", r)
  | None =>
  match strip_prefix "gt;" s with
  | Some r => Some (">", r)
  | None =>
  match strip_prefix "amp;" s with
  | Some r => Some ("&", r)
  | None =>
  match strip_prefix "quot;" s with
  | Some r => Some (quote, r)
  | None =>
  match strip_prefix "apos;" s with
  | Some r => Some ("'", r)
  | None =>
  match (match strip_prefix "#x" s with
         | Some r => ref_digits 16 0 r
         | None => match strip_prefix "#" s with Some r => ref_digits 10 0 r | None => None end
         end) with
  | Some (n, r) => if xml_char n then Some (utf8 n, r) else None
  | None => None
  end end end end end end.

(** The character that a character stands for, and the rest: a carriage return becomes a newline, CR LF one newline; in
    attribute values every white space character becomes a space. *)
Definition one_char (attr : bool) (c : ascii) (r : string) : ascii * string :=
  ((if attr && xml_ws c then " "%char else if Ascii.eqb c (ascii_of_nat 13) then ascii_of_nat 10 else c),
   (if Ascii.eqb c (ascii_of_nat 13) then match r with String d r1 => if Ascii.eqb d (ascii_of_nat 10) then r1 else r | "" => r end
    else r)).

(** Character data up to the stop character [q] (not consumed); references are replaced.  A '<' that is not the
    stop character is an error, so is "]]>" in element text. *)
Fixpoint char_data (f : nat) (attr : bool) (q : ascii) (s : string) : option (string * string) :=
  match f with
  | O => None
  | S f' =>
    match s with
    | "" => None
    | String c r =>
      if Ascii.eqb c q then Some ("", s)
      else if Ascii.eqb c "<"%char then None
      else if xml_bad c then None
      else if Ascii.eqb c "&"%char then
        match parse_reference r with
        | None => None
        | Some (x, r') => match char_data f' attr q r' with
                          | Some (t, rest) => Some (x ++ t, rest)%string
                          | None => None
                          end
        end
      else if negb attr && match strip_prefix "]]>" s with Some _ => true | None => false end then None
      else
        let (x, r') := one_char attr c r in
        match char_data f' attr q r' with
        | Some (t, rest) => Some (String x t, rest)
        | None => None
        end
    end
  end.

(** Whether there is a colon. *)
Fixpoint has_colon (s : string) : bool :=
  match s with "" => false | String c r => Ascii.eqb c ":" || has_colon r end.

(** A comment or processing instruction: what follows it. *)
Definition parse_misc (s : string) : option string :=
  match strip_prefix "<!--" s with
  | Some r => match upto "--" r with Some (_, r1) => strip_prefix ">" r1 | None => None end
  | None =>
  match strip_prefix "<?" s with
  | Some r =>
    match parse_name r with
    | Some (n, r1) =>
      if String.eqb (lower n) "xml" || has_colon n then None
      else match r1 with
           | String c _ => if xml_ws c || Ascii.eqb c "?" then match upto "?>" r1 with
                             | Some (t, r2) => if xml_ws c || String.eqb t "" then Some r2 else None
                             | None => None end else None
           | "" => None
           end
    | None => None
    end
  | None => None
  end end.

(** Line ends in a CDATA section. *)
Fixpoint line_ends (s : string) : string :=
  match s with
  | "" => ""
  | String c r =>
    if Ascii.eqb c (ascii_of_nat 13) then
      match r with
      | String d _ => if Ascii.eqb d (ascii_of_nat 10) then line_ends r else String (ascii_of_nat 10) (line_ends r)
      | "" => String (ascii_of_nat 10) ""
      end
    else String c (line_ends r)
  end.

(** Text: character data and CDATA sections. *)
Fixpoint text_data (f : nat) (s : string) : option (string * string) :=
  match f with
  | O => None
  | S f' =>
    match char_data f false "<"%char s with
    | None => None
    | Some (t, s1) =>
      match strip_prefix "<![CDATA[" s1 with
      | None => Some (t, s1)
      | Some s2 =>
        match upto "]]>" s2 with
        | None => None
        | Some (c, s3) =>
          match text_data f' s3 with
          | Some (t', s4) => Some (t ++ line_ends c ++ t', s4)%string
          | None => None
          end
        end
      end
    end
  end.

(** Text up to the next start or end tag.  lxml ends the text of an element and the text after an
    element at a comment or processing instruction; these are children, too, but the reader only looks at
    elements (findall), so that text after them is not seen. *)
Fixpoint parse_content (f : nat) (s : string) : option (string * string) :=
  match f with
  | O => None
  | S f' =>
    match text_data f s with
    | None => None
    | Some (t, s1) =>
      match parse_misc s1 with
      | Some s2 => match parse_content f' s2 with Some (_, s3) => Some (t, s3) | None => None end
      | None =>
        match s1 with
        | String _ (String c _) => if Ascii.eqb c "/"%char || name_start c then Some (t, s1) else None
        | _ => None
        end
      end
    end
  end.

(** Attributes up to '>', '/' or '?': white space, name, '=', quoted value; names must be distinct. *)
Fixpoint parse_attrs (f : nat) (s : string) : option (attrs * string) :=
  match f with
  | O => None
  | S f' =>
    let (ws, s1) := span xml_ws s in
    match s1 with
    | "" => None
    | String c _ =>
      if Ascii.eqb c ">"%char || Ascii.eqb c "/"%char || Ascii.eqb c "?"%char then Some ([], s1)
      else if String.eqb ws "" then None
      else
        match parse_name s1 with
        | None => None
        | Some (name, s2) =>
          match strip_prefix "=" (snd (span xml_ws s2)) with
          | None => None
          | Some s3 =>
            match snd (span xml_ws s3) with
            | "" => None
            | String q s4 =>
              if Ascii.eqb q (ascii_of_nat 34) || Ascii.eqb q "'"%char then
                match char_data f' true q s4 with
                | Some (v, String _ s5) =>
                    match parse_attrs f' s5 with
                    | Some (a, s6) =>
                        if existsb (fun p => String.eqb name (fst p)) a then None else Some ((name, v) :: a, s6)
                    | None => None
                    end
                | _ => None
                end
              else None
            end
          end
        end
    end
  end.

(** An element: start tag, content, end tag; and the content of an element up to its end tag
    "</": the text before the first child, then the children and the text after each of them. *)
Fixpoint parse_elem (f : nat) (s : string) : option (xml * string) :=
  match f with
  | O => None
  | S f' =>
    match strip_prefix "<" s with
    | None => None
    | Some s0 =>
      match parse_name s0 with
      | None => None
      | Some (tag, s1) =>
        match parse_attrs f' s1 with
        | None => None
        | Some (a, s2) =>
          match strip_prefix "/>" s2 with
          | Some rest => Some (Elem tag a "" [] [], rest)
          | None =>
          match strip_prefix ">" s2 with
          | None => None
          | Some s3 =>
            match parse_content f' s3 with
            | None => None
            | Some (text, s4) =>
              match parse_kids f' s4 with
              | None => None
              | Some (kids, tails, s5) =>
                match strip_prefix ("</" ++ tag) s5 with
                | Some s6 => match strip_prefix ">" (snd (span xml_ws s6)) with
                             | Some rest => Some (Elem tag a text kids tails, rest)
                             | None => None
                             end
                | None => None
                end
              end
            end
          end end
        end
      end
    end
  end
with parse_kids (f : nat) (s : string) : option (list xml * list string * string) :=
  match f with
  | O => None
  | S f' =>
    match strip_prefix "</" s with
    | Some _ => Some ([], [], s)
    | None =>
      match parse_elem f' s with
      | None => None
      | Some (x, s1) =>
        match parse_content f' s1 with
        | None => None
        | Some (t, s2) =>
          match parse_kids f' s2 with
          | None => None
          | Some (l, ts, s3) => Some (x :: l, t :: ts, s3)
          end
        end
      end
    end
  end.

(** Past white space, comments and processing instructions. *)
Fixpoint skip_misc (f : nat) (s : string) : string :=
  let s1 := snd (span xml_ws s) in
  match f with
  | O => s1
  | S f' => match parse_misc s1 with Some s2 => skip_misc f' s2 | None => s1 end
  end.

(** The XML declaration: version 1.0, the encoding UTF-8 in any case, and whether the document is
    standalone, the last two optional. *)
Definition decl_ok (a : attrs) : bool :=
  let standalone r := match r with
                      | [] => true
                      | [(k, v)] => String.eqb k "standalone" && (String.eqb v "yes" || String.eqb v "no")
                      | _ => false
                      end%bool in
  match a with
  | (k1, v1) :: r =>
      String.eqb k1 "version" && String.eqb v1 "1.0" &&
      match r with
      | (k2, v2) :: r' => (String.eqb k2 "encoding" && String.eqb (lower v2) "utf-8" && standalone r') || standalone r
      | [] => true
      end
  | [] => false
  end%bool.
Definition parse_decl (s : string) : option string :=
  match strip_prefix "<?xml" s with
  | None => None
  | Some r =>
    match parse_attrs (S (String.length r)) r with
    | Some (a, r1) => if decl_ok a then strip_prefix "?>" r1 else None
    | None => None
    end
  end.

(** The byte order mark of UTF-8. *)
Definition bom : string := String (ascii_of_nat 239) (String (ascii_of_nat 187) (String (ascii_of_nat 191) "")).

(** The document element and what follows it. *)
Definition parse_root (s : string) : option (xml * string) :=
  let s0 := match strip_prefix bom s with Some r => r | None => s end in
  let s1 := match parse_decl s0 with Some r => r | None => s0 end in
  let s2 := skip_misc (String.length s1) s1 in
  parse_elem (S (String.length s2)) s2.

(** ElementTree.fromstring (reader.py:370, 385) and ElementTree.parse (reader.py:355): the document element, after an optional
    XML declaration; only white space, comments and processing instructions may stand around it. *)
Definition parse (s : string) : result xml :=
  match parse_root s with
  | Some (x, rest) => if String.eqb (skip_misc (String.length rest) rest) "" then Ok x else Err ParseError
  | None => Err ParseError
  end.

(** ** Reader helpers *)

(** ChildElementMap(elem).get(tag), reader.py:73-92: the first child with the tag. *)
Fixpoint get (tag : string) (kids : list xml) : option xml :=
  match kids with
  | [] => None
  | x :: r => if String.eqb tag (x_tag x) then Some x else get tag r
  end.

(** elem.findall('./TAG') *)
Definition findall (tag : string) (kids : list xml) : list xml :=
  filter (fun x => String.eqb tag (x_tag x)) kids.

(** xml_child.text as a Python value: None when there is no text. *)
Definition text_opt (x : xml) : option string :=
  match x_text x with "" => None | s => Some s end.
