(** Model: namespaces, as lxml resolves them while it parses (Namespaces in XML 1.0), and what the reader makes of
    them (src/autosar/xml/reader.py:433-441).  Simplification: whether the name of a namespace is a valid URI is not
    checked. *)
From Verif Require Import Base MNames MNum MXml.
Local Open Scope string_scope.

(** The namespaces of the prefixes xml and xmlns, and that of ARXML documents (reader.py:359, 375). *)
Definition xml_uri : string := "http://www.w3.org/XML/1998/namespace".
Definition xmlns_uri : string := "http://www.w3.org/2000/xmlns/".
Definition arxml_uri : string := "http://autosar.org/schema/r4.0".

(** Prefix ("" if there is none) and local part of a name (lxml). *)
Definition split_name (n : string) : option (string * string) :=
  if has_colon n then
    let (p, l) := partition_at ":" n in
    match p, l with
    | String _ _, String c _ => if name_start c && negb (has_colon l) then Some (p, l) else None
    | _, _ => None
    end
  else match n with String c _ => if name_start c then Some ("", n) else None | "" => None end.

(** Namespaces of prefixes; that of "" is the default namespace ("" for none). *)
Definition bindings := list (string * string).
(** Declarations that are allowed (lxml). *)
Definition declaration_ok (p uri : string) : bool :=
  if String.eqb p "" then negb (String.eqb uri xml_uri) && negb (String.eqb uri xmlns_uri)
  else if String.eqb p "xml" then String.eqb uri xml_uri
  else negb (String.eqb p "xmlns") && negb (String.eqb uri "") && negb (String.eqb uri xml_uri) && negb (String.eqb uri xmlns_uri).

(** The declarations among the attributes of an element, and the other attributes, with split names (lxml). *)
Fixpoint sort_attrs (a : attrs) : option (bindings * list (string * string * string)) :=
  match a with
  | [] => Some ([], [])
  | (n, v) :: r =>
    match split_name n, sort_attrs r with
    | Some (p, l), Some (ds, rest) =>
      if String.eqb p "" && String.eqb l "xmlns" then if declaration_ok "" v then Some (("", v) :: ds, rest) else None
      else if String.eqb p "xmlns" then if declaration_ok l v then Some ((l, v) :: ds, rest) else None
      else Some (ds, (p, l, v) :: rest)
    | _, _ => None
    end
  end.

(** A name in a namespace, as lxml shows it. *)
Definition in_namespace (uri l : string) : string := if String.eqb uri "" then l else "{" ++ uri ++ "}" ++ l.
(** The namespace of a prefix (lxml). *)
Definition lookup (env : bindings) (p : string) : option string :=
  if String.eqb p "xml" then Some xml_uri else assoc p env.
(** Names of elements and attributes; the default namespace is not for attributes (lxml). *)
Definition expand_tag (env : bindings) (n : string) : option string :=
  match split_name n with
  | None => None
  | Some (p, l) =>
    if String.eqb p "" then Some (in_namespace (match assoc "" env with Some u => u | None => "" end) l)
    else match lookup env p with Some u => Some (in_namespace u l) | None => None end
  end.
Fixpoint expand_attrs (env : bindings) (a : list (string * string * string)) : option attrs :=
  match a with
  | [] => Some []
  | (p, l, v) :: r =>
    match (if String.eqb p "" then Some l else match lookup env p with Some u => Some (in_namespace u l) | None => None end), expand_attrs env r with
    | Some n, Some b => if existsb (fun q => String.eqb n (fst q)) b then None else Some ((n, v) :: b)
    | _, _ => None
    end
  end.

(** All, or none if one is missing. *)
Fixpoint all_some {A} (l : list (option A)) : option (list A) :=
  match l with
  | [] => Some []
  | None :: _ => None
  | Some x :: r => match all_some r with Some y => Some (x :: y) | None => None end
  end.
(** An element with its names resolved (lxml). *)
Fixpoint resolve (env : bindings) (x : xml) : option xml :=
  match x with
  | Elem tag a t kids tails =>
    match sort_attrs a with
    | None => None
    | Some (ds, rest) =>
      match expand_tag (ds ++ env)%list tag, expand_attrs (ds ++ env)%list rest, all_some (map (resolve (ds ++ env)%list) kids) with
      | Some n, Some b, Some k => Some (Elem n b t k tails)
      | _, _, _ => None
      end
    end
  end.

(** ElementTree.fromstring, as used by reader.py:385: parsed, with names resolved *)
Definition parse_names (text : string) : result xml :=
  match parse text with
  | Err e => Err e
  | Ok x => match resolve [] x with Some y => Ok y | None => Err ParseError end
  end.

(** _clean_namespace, reader.py:433-441 *)
Definition clean_tag (n : string) : string :=
  match strip_prefix ("{" ++ arxml_uri ++ "}") n with Some l => l | None => n end.
Fixpoint clean_namespace (x : xml) : xml :=
  match x with Elem tag a t kids tails => Elem (clean_tag tag) a t (map clean_namespace kids) tails end.

(** The document element of a text, with ElementTree.fromstring / parse and _clean_namespace, reader.py:354-359, 371-375 *)
Definition load (text : string) : result xml :=
  match parse_names text with Ok x => Ok (clean_namespace x) | Err e => Err e end.
