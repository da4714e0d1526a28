(** Writing and reading a single element as text.  No proofs in this file. *)
From Verif Require Import Base MXml MNs MCodec.

(** write_str_elem, writer.py:417-432: the calls the writer method of the element makes, on an empty
    buffer, with the indentation step 2 of Writer (writer.py:184).  The choice of the method by
    class name is the choice of [m]. *)
Definition element_text (m : out) : result string :=
  let* ws := m in
  let* s := do_calls 2 xw_open (flat_map calls ws) in Ok (x_out s).
(** read_str_elem, reader.py:380-393: parse, then apply the reader method [read] of the tag or of
    the type name. *)
Definition read_element {A} (read : xml -> result A) (text : string) : result A :=
  let* x := parse_names text in read x.
