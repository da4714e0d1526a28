(** Further building blocks of the writer and reader methods of elements.
    Sources: /repo/src/autosar/xml/writer.py, /repo/src/autosar/xml/reader.py,
    /repo/src/autosar/xml/base.py.  No proofs in this file. *)
From Verif Require Import Base MNames MNum MXml MEnum MRefTab MRef MCodec.

(** xml_child = child_elements.get(tag); the first child of it, if any, is read:
    value = read(xml_child.find('./ * ')) (for example reader.py:2835-2860) *)
Definition child_inner {A} (tag : string) (kids : list xml) (read : xml -> result A) : result (option A) :=
  match get tag kids with
  | None => Ok None
  | Some x => match x_kids x with [] => Ok None | y :: _ => let* a := read y in Ok (Some a) end
  end.
(** The same inside try/except KeyError: pass (for example reader.py:1733-1741) *)
Definition child_inner_try {A} (tag : string) (kids : list xml) (read : xml -> result A) : result (option A) :=
  match child_inner tag kids read with Err KeyError => Ok None | r => r end.
(** xml_child = child_elements.get(container); its first child called tag, if any, is read:
    value = read(xml_child.find(tag)) (for example reader.py:4264-4272) *)
Definition child_find {A} (container tag : string) (kids : list xml) (read : xml -> result A) : result (option A) :=
  match get container kids with None => Ok None | Some x => child tag (x_kids x) read end.

(** Loops with an if/elif chain over the tag of each child (for example reader.py:4248-4256):
    [sel] chooses the reader of a tag, other children are passed over. *)
Fixpoint select {A} (sel : string -> option (xml -> result A)) (kids : list xml) : result (list A) :=
  match kids with
  | [] => Ok []
  | x :: r => match sel (x_tag x) with
              | None => select sel r
              | Some read => let* a := read x in let* l := select sel r in Ok (a :: l)
              end
  end.
Definition children_sel {A} (container : string) (kids : list xml) (sel : string -> option (xml -> result A)) : result (list A) :=
  match get container kids with None => Ok [] | Some x => select sel (x_kids x) end.

(** self._assign_optional(name, value, float) (xml/base.py:48-64, 136-144): float(value) of an
    int or float *)
Definition as_float (n : pynum) : pynum := NFloat (to_float n).
(** self._assign_optional_positive_int(name, value) (xml/base.py:95-100, 146-154): a negative
    value raises ValueError *)
Definition opt_positive (o : option Z) : result (option Z) :=
  match o with
  | Some z => if (z <? 0)%Z then Err ValueError else Ok o
  | None => Ok o
  end.
(** ar_element.C( **data) where data has keys, read from the elements called [tags], that no
    constructor of C knows: TypeError *)
Fixpoint unexpected (tags : list string) (kids : list xml) : result unit :=
  match tags with
  | [] => Ok tt
  | t :: r => match get t kids with None => unexpected r kids | Some _ => Err TypeError end
  end.
