(** Workspaces with a package map. *)
From Verif Require Import Base MHeap SHeap MWork MMap.

(** A state of the workspace [c]: any number of calls after its creation.  The map is empty at first. *)
Definition workspace_state (c : nat) (h : heap) (m : list (string * nat)) : Prop :=
  exists h0 ops, reachable h0 /\ has_kind KColl h0 c /\ (h, m) = map_run c ops (h0, []).
(** Histories in which no other map is created. *)
Definition keeps_map (o : map_op) : Prop := match o with MMap _ => False | _ => True end.
