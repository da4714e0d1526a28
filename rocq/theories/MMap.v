(** Histories of calls on a workspace with a package map.
    Source: /repo/src/autosar/xml/workspace.py:120-159, on top of MWork.v and MHeap.v.
    No proofs in this file. *)
From Verif Require Import Base MHeap MWork.

(** The calls: create_package_map (workspace.py:120-129), add_element (131-139), and any call on packages,
    elements and collections (MHeap.v). *)
Inductive map_op :=
| MMap (mapping : list (string * string))
| MAdd (key : string) (e : nat)
| MCall (o : op).
(** One call on the workspace [c]; the state is the heap and self.package_map, workspace.py:87.  add_element
    appends to a Package, so that it is Package.append (element.py:2845-2866) that runs. *)
Definition map_step (c : nat) (s : heap * list (string * nat)) (o : map_op) : heap * list (string * nat) :=
  let (h, m) := s in
  match o with
  | MMap l => fst (create_package_map h c l)
  | MAdd k e => (fst (ws_add h m k e), m)
  | MCall o => (fst (step h o), m)
  end.
Definition map_run (c : nat) (ops : list map_op) (s : heap * list (string * nat)) := fold_left (map_step c) ops s.
