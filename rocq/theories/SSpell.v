(** The ways in which a document can be spelled in XML 1.0: a grammar, relating what the reader sees to
    the text.  (XML declarations in UTF-8, no document type declarations.) *)
From Verif Require Import Base MNames MNum MXml SXml.

Definition blank (s : string) : Prop := all_chars (fun c => xml_ws c = true) s.
(** No control characters. *)
Definition clean (s : string) : Prop := all_chars (fun c => xml_bad c = false) s.

(** Numbers in a base. *)
Inductive number (base : N) : string -> N -> Prop :=
| number_digit c v : digit_of base c = Some v -> number base (String c "") v
| number_more s n c v : number base s n -> digit_of base c = Some v -> number base (s ++ String c "") (base * n + v)%N.

(** [names x e]: [&e;] stands for the character [x]. *)
Inductive names : string -> string -> Prop :=
| names_lt : names "<" "lt"
| names_gt : names ">" "gt"
| names_amp : names "&" "amp"
| names_quot : names quote "quot"
| names_apos : names "'" "apos"
| names_dec d n : number 10 d n -> xml_char n = true -> names (utf8 n) ("#" ++ d)
| names_hex d n : number 16 d n -> xml_char n = true -> names (utf8 n) ("#x" ++ d).

(** Carriage return and newline. *)
Definition cr : ascii := ascii_of_nat 13.
Definition nl : ascii := ascii_of_nat 10.

(** [chars attr q t s]: the characters [t] are spelled [s] in an attribute value between [q] and [q], or
    in the text of an element.  In attribute values white space stands for blanks. *)
Inductive chars (attr : bool) (q : ascii) : string -> string -> Prop :=
| chars_nil : chars attr q "" ""
| chars_literal c t s :
    c <> q -> c <> "<"%char -> c <> "&"%char -> c <> cr -> xml_bad c = false ->
    (attr = false -> ~ exists r, String c s = ("]]>" ++ r)%string) ->
    chars attr q t s -> chars attr q (String (if attr && xml_ws c then " "%char else c) t) (String c s)
| chars_crlf t s :
    chars attr q t s -> chars attr q (String (if attr then " "%char else nl) t) (String cr (String nl s))
| chars_cr t s : (~ exists r, s = String nl r) ->
    chars attr q t s -> chars attr q (String (if attr then " "%char else nl) t) (String cr s)
| chars_reference x e t s :
    names x e -> chars attr q t s -> chars attr q (x ++ t) ("&" ++ e ++ ";" ++ s).

(** Text of an element: characters and CDATA sections. *)
Inductive text : string -> string -> Prop :=
| text_chars t s : chars false "<" t s -> text t s
| text_cdata t s c u v : chars false "<" t s -> clean c -> ~ has "]]>" c -> text u v ->
    text (t ++ line_ends c ++ u) (s ++ "<![CDATA[" ++ c ++ "]]>" ++ v).

(** Comments and processing instructions. *)
Inductive aside : string -> Prop :=
| aside_comment c : clean c -> ~ has "--" (c ++ "-") -> aside ("<!--" ++ c ++ "-->")
| aside_instruction n b : name_ok n -> has_colon n = false -> lower n <> "xml" -> clean b -> ~ has "?>" b ->
    (b = "" \/ exists c r, b = String c r /\ xml_ws c = true) -> aside ("<?" ++ n ++ b ++ "?>").

(** What stands between two tags: of the text, only what comes before the first comment or
    processing instruction is seen. *)
Inductive between : string -> string -> Prop :=
| between_text t s : text t s -> between t s
| between_aside t s m u v : text t s -> aside m -> between u v -> between t (s ++ m ++ v).

(** Attributes: white space, name, '=', value in either kind of quotes. *)
Inductive attributes : attrs -> string -> Prop :=
| attributes_nil w : blank w -> attributes [] w
| attributes_cons w n w1 w2 q v s a r :
    w <> "" -> blank w -> name_ok n -> blank w1 -> blank w2 -> (q = ascii_of_nat 34 \/ q = "'"%char) ->
    chars true q v s -> ~ In n (map fst a) -> attributes a r ->
    attributes ((n, v) :: a) (w ++ n ++ w1 ++ "=" ++ w2 ++ String q (s ++ String q r)).

(** Elements. *)
Inductive spelled : xml -> string -> Prop :=
| spelled_empty tag a s : name_ok tag -> attributes a s ->
    spelled (Elem tag a "" [] []) ("<" ++ tag ++ s ++ "/>")
| spelled_full tag a s t u kids tails v w : name_ok tag -> attributes a s -> between t u -> spelled_kids kids tails v -> blank w ->
    spelled (Elem tag a t kids tails) ("<" ++ tag ++ s ++ ">" ++ u ++ v ++ "</" ++ tag ++ w ++ ">")
with spelled_kids : list xml -> list string -> string -> Prop :=
| spelled_none : spelled_kids [] [] ""
| spelled_kid x e t u kids tails v : spelled x e -> between t u -> spelled_kids kids tails v ->
    spelled_kids (x :: kids) (t :: tails) (e ++ u ++ v).

(** Around the document element. *)
Inductive around : string -> Prop :=
| around_nil : around ""
| around_blank c s : xml_ws c = true -> around s -> around (String c s)
| around_aside m s : aside m -> around s -> around (m ++ s).

(** The XML declaration. *)
Definition declares (a : attrs) : Prop :=
  exists enc alone, a = ("version", "1.0") :: enc ++ alone /\
    (enc = [] \/ exists e, lower e = "utf-8" /\ enc = [("encoding", e)]) /\
    (alone = [] \/ alone = [("standalone", "yes")] \/ alone = [("standalone", "no")]).

Inductive spelled_document : xml -> string -> Prop :=
| spelled_doc x mark decl before e after :
    (mark = "" \/ mark = bom) ->
    (decl = "" \/ exists a s, declares a /\ attributes a s /\ decl = ("<?xml" ++ s ++ "?>")%string) ->
    around before -> spelled x e -> around after ->
    spelled_document x (mark ++ decl ++ before ++ e ++ after).

(** [before_tag x p q]: [p ++ q] spells the element [x], and between [p] and [q] is a place inside the
    element right before the tag of a child or its own end tag. *)
Inductive before_tag : xml -> string -> string -> Prop :=
| before_here tag a s t u k1 t1 v1 k2 t2 v2 w : name_ok tag -> attributes a s -> between t u ->
    spelled_kids k1 t1 v1 -> spelled_kids k2 t2 v2 -> blank w ->
    before_tag (Elem tag a t (k1 ++ k2) (t1 ++ t2)) ("<" ++ tag ++ s ++ ">" ++ u ++ v1) (v2 ++ "</" ++ tag ++ w ++ ">")
| before_inside tag a s t u k1 t1 v1 x p q t' u' k2 t2 v2 w : name_ok tag -> attributes a s -> between t u ->
    spelled_kids k1 t1 v1 -> before_tag x p q -> between t' u' -> spelled_kids k2 t2 v2 -> blank w ->
    before_tag (Elem tag a t (k1 ++ x :: k2) (t1 ++ t' :: t2))
      ("<" ++ tag ++ s ++ ">" ++ u ++ v1 ++ p) (q ++ u' ++ v2 ++ "</" ++ tag ++ w ++ ">").

(** The number a UTF-8 sequence stands for. *)
Definition utf8_number (s : string) : option N :=
  let more b := (N_of_ascii b - 128)%N in
  match s with
  | String a "" => Some (N_of_ascii a)
  | String a (String b "") => Some ((N_of_ascii a - 192) * 64 + more b)%N
  | String a (String b (String c "")) => Some ((N_of_ascii a - 224) * 4096 + more b * 64 + more c)%N
  | String a (String b (String c (String d ""))) => Some ((N_of_ascii a - 240) * 262144 + more b * 4096 + more c * 64 + more d)%N
  | _ => None
  end.

(** ** The characters of XML, as its recommendation lists them *)
(** A character of a list. *)
Fixpoint one_of (l : string) (c : ascii) : Prop := match l with "" => False | String d r => c = d \/ one_of r c end.
(** Bytes of characters beyond ASCII. *)
Definition beyond_ascii (c : ascii) : Prop := (128 <= N_of_ascii c)%N.
Definition letters : string := "ABCDEFGHIJKLMNOPQRSTUVWXYZabcdefghijklmnopqrstuvwxyz".
Definition starts_name (c : ascii) : Prop := one_of letters c \/ one_of "_:" c \/ beyond_ascii c.
Definition in_name (c : ascii) : Prop := starts_name c \/ one_of "0123456789-." c.
Definition is_blank (c : ascii) : Prop := In (N_of_ascii c) [32; 9; 10; 13]%N.
Definition is_control (c : ascii) : Prop := (N_of_ascii c < 32)%N /\ ~ is_blank c.
(** Char, production 2 *)
Definition is_char (n : N) : Prop :=
  (n = 0x9 \/ n = 0xA \/ n = 0xD \/ 0x20 <= n <= 0xD7FF \/ 0xE000 <= n <= 0xFFFD \/ 0x10000 <= n <= 0x10FFFF)%N.
(** The value of a digit: its place in the list. *)
Fixpoint place (l : string) (c : ascii) : option N :=
  match l with "" => None | String d r => if Ascii.eqb c d then Some 0%N else option_map N.succ (place r c) end.
Definition decimal_digit (c : ascii) (v : N) : Prop := place "0123456789" c = Some v.
Definition hex_digit (c : ascii) (v : N) : Prop := place "0123456789abcdef" c = Some v \/ place "0123456789ABCDEF" c = Some v.
(** The UTF-8 sequences: the first byte tells the length, the others are between 80 and BF (hexadecimal); no shorter
    sequence could be used. *)
Definition continues (c : ascii) : Prop := (0x80 <= N_of_ascii c < 0xC0)%N.
Definition utf8_shape (n : N) (s : string) : Prop :=
  match s with
  | String a "" => n < 0x80
  | String a (String b "") => 0x80 <= n < 0x800 /\ 0xC0 <= N_of_ascii a < 0xE0 /\ continues b
  | String a (String b (String c "")) => 0x800 <= n < 0x10000 /\ 0xE0 <= N_of_ascii a < 0xF0 /\ continues b /\ continues c
  | String a (String b (String c (String d ""))) => 0x10000 <= n /\ 0xF0 <= N_of_ascii a < 0xF8 /\ continues b /\ continues c /\ continues d
  | _ => False
  end%N.
(** Line ends: CR LF and a single CR become LF. *)
Inductive normal : string -> string -> Prop :=
| normal_nil : normal "" ""
| normal_crlf s t : normal s t -> normal (String cr (String nl s)) (String nl t)
| normal_cr s t : (~ exists r, s = String nl r) -> normal s t -> normal (String cr s) (String nl t)
| normal_char c s t : c <> cr -> normal s t -> normal (String c s) (String c t).
