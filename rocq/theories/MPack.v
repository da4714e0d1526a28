(** Creating packages and address methods.  Source: /repo/src/autosar/xml/element.py.  No proofs in this file. *)
From Verif Require Import Base MNum MXml MEnum MRefTab MRef MCodec MElem0 MElem1 MElemA MElemB MElemC MElem2 MElemD MElem3 MElem4 MElemE MElem5 MElemF MArxml MFind MValue MEvent MPort MAccess MRunnable.

(** Package.__init__, element.py:2839-2843, with CollectableElement and Identifiable.__init__, 283-291, 231-256 *)
Definition new_package (name : string) (kw : keyword_args) : result package :=
  let* _ := check_keywords identifiable_keywords kw in
  let* i := MAccess.new_identifiable name kw in
  Ok (mkPackage i [] []).
(** SwAddrMethod.__init__, element.py:2401-2406 *)
Definition new_addr_method (name : string) (kw : keyword_args) : result SwAddrMethod :=
  let* _ := check_keywords identifiable_keywords kw in
  let* i := MAccess.new_identifiable name kw in
  Ok (mkSwAddrMethod i).
