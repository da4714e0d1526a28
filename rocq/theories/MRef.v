(** References: construction, assignment, reading and writing.  No proofs in this file. *)
From Verif Require Import Base MEnum MRefTab MXml.

(** BaseRef, xml/base.py:167-175: address and destination kind.  The class is kept beside the
    object where it matters (its reference class is fixed by the attribute that holds it).  The
    address is a str; "" also stands for None (an element without text). *)
Record ref := mkRef { rf_value : string; rf_dest : IdentifiableSubTypes }.

(** [==] on enum members *)
Definition dest_eqb (a b : IdentifiableSubTypes) : bool :=
  Nat.eqb (IdentifiableSubTypes_value a) (IdentifiableSubTypes_value b).
(** dest in accepted_sub_types() *)
Definition accepts (c : ref_class) (d : IdentifiableSubTypes) : bool := existsb (dest_eqb d) (rc_accepted c).

(** BaseRef.__init__, xml/base.py:172-188.  [dest = None] on a class with several destinations
    raises TypeError: building the message sorts Enum members, which have no order. *)
Definition ref_new (c : ref_class) (value : string) (dest : option IdentifiableSubTypes) : result ref :=
  let* d := match dest with
            | Some d => Ok d
            | None => match rc_accepted c with
                      | [d] => Ok d
                      | _ => Err TypeError
                      end
            end in
  if accepts c d then Ok (mkRef value d) else Err ValueError.

(** XxxRef(value), reference.py: the constructor with its default for dest. *)
Definition ref_default (c : ref_class) (value : string) : result ref := ref_new c value (rc_default c).

(** An argument given where a reference is expected: a str, an instance of a reference class, or
    anything else. *)
Inductive ref_arg := RefStr (s : string) | RefObj (c : ref_class) (r : ref) | RefOther.

(** ARObject._check_and_set_reference, xml/base.py:112-134: the new attribute value; on an
    exception the attribute keeps its value. *)
Definition check_and_set_reference (a : ref_arg) (c : ref_class) : result ref :=
  match rc_accepted c with
  | [] => Err RuntimeError
  | accepted =>
    match a with
    | RefStr s => match accepted with
                  | [d] => ref_new c s (Some d)
                  | _ => Err TypeError
                  end
    | RefObj c' r => if String.eqb (rc_name c') (rc_name c) || accepts c (rf_dest r)
                     then ref_new c (rf_value r) (Some (rf_dest r))
                     else Err TypeError
    | RefOther => Err TypeError
    end
  end.

(** _collect_base_ref_attr and the _write_*_ref methods, writer.py:1972-2478: one element with the
    DEST attribute; the schema version used is the default one. *)
Definition write_ref (tag : string) (r : ref) : result (list wt) :=
  let* d := enum_to_xml em_IdentifiableSubTypes (rf_dest r) 51 in
  Ok [Leaf tag [("DEST", d)] (rf_value r)].

(** The _read_*_ref methods, reader.py:2287-2830. *)
Definition read_ref (c : ref_class) (version : N) (x : xml) : result ref :=
  match assoc "DEST" (x_attrs x) with
  | None => Err ParseError
  | Some dest =>
    match rc_reader c with
    | DestText t => if String.eqb dest t then ref_default c (x_text x) else Err ParseError
    | DestEnum => let* d := xml_to_enum em_IdentifiableSubTypes dest version in
                  ref_new c (x_text x) (Some d)
    | NoReader => Err NotImplementedError
    end
  end.
