(** What is to be found on disk after a run of Workspace.write_documents (C75). *)
From Verif Require Import Base MHeap SHeap MWork SWork MCodec SCodec MArxml SArxml SReload SRun MFile PropsReload.
Open Scope list_scope.

(** The element [x] is due in the file [path], under the given names: because it is below a package that a document is configured with, or because it
    belongs to an element of a mapped package. *)
Inductive due (root : option string) (h : heap) (ws : nat) (ds : list docconf) (ms : list mapping) : string -> list string -> nat -> Prop :=
| due_configured dc r p ns x : In dc ds -> In r (dc_refs dc) -> coll_find h ws r = Ok (Some p) -> path h p ns x -> is_element h x ->
    due root h ws ds ms (out_path root (dc_path dc)) (name_of h p :: ns) x
| due_generated m pkg po ns e x : In m ms -> coll_find h ws (m_ref m) = Ok (Some pkg) -> nth_error h pkg = Some po -> calc_ref h pkg = Ok (Some (abs ns)) -> ns <> [] ->
    (forall n, In n ns -> valid_name n) -> In e (o_elements po) -> m_type m e = true -> belongs h (m_suffixes m) (o_elements po) e x ->
    due root h ws ds ms (out_path root (name_of h e ++ ".arxml")) (ns ++ [name_of h x]) x.
(** A text that every reader, strict or tolerant, loads, with the element in its place *)
Definition has_element (text : string) (ns : list string) (a : ARElement) : Prop :=
  exists loaded, (forall v stop, snd (read_str v text stop) = Ok loaded) /\ stands (doc_packages loaded) ns a.
