(** Specification of a whole run of Workspace.write_documents (C67): what the configured documents and the generated documents hold, in terms of
    the workspace before the run. *)
From Verif Require Import Base MHeap SHeap MWork SWork SReload.

(** The names and kinds of all objects, and the contents of all but the documents [ds], are as they were.  Parents may differ. *)
Definition contents_kept (ds : list nat) (h h' : heap) : Prop :=
  forall i o, nth_error h i = Some o -> exists o', nth_error h' i = Some o' /\ o_kind o' = o_kind o /\ o_name o' = o_name o /\
    (~ In i ds -> o_packages o' = o_packages o /\ o_elements o' = o_elements o /\ o_map o' = o_map o).

(** A document can be put together: every reference leads to a package or nowhere, and no two packages have the same name. *)
Definition fits (h : heap) (ws : nat) (dc : docconf) : Prop :=
  exists ps, resolved h ws (dc_refs dc) ps /\ NoDup (map (name_of h) ps) /\
    (forall p, In p ps -> ~ In (name_of h p) (map (name_of h) (packages_of h (dc_doc dc)))).

(** The file of a configured document: it has the configured path, and holds what the document held before, followed by the configured packages.
    The packages in it have the trees they had before the run. *)
Definition saved_document (root : option string) (h : heap) (ws : nat) (dc : docconf) (f : file) : Prop :=
  f_path f = out_path root (dc_path dc) /\ f_doc f = dc_doc dc /\
  (exists ps, resolved h ws (dc_refs dc) ps /\ packages_of (f_heap f) (f_doc f) = packages_of h (dc_doc dc) ++ ps) /\
  (forall c id p t, has_kind KPkg h p -> package_of (f_heap f) c id p t <-> package_of h c id p t).

(** A mapping can be carried out: its reference leads nowhere, or to a package whose own reference is a path of names; no suffix is listed twice. *)
Definition mapping_fits (h : heap) (ws : nat) (m : mapping) : Prop :=
  NoDup (filter (fun s => negb (String.eqb s "")) (m_suffixes m)) /\
  (coll_find h ws (m_ref m) = Ok None \/
   exists pkg ns, coll_find h ws (m_ref m) = Ok (Some pkg) /\ has_kind KPkg h pkg /\ ns <> [] /\ (forall n, In n ns -> valid_name n) /\
     calc_ref h pkg = Ok (Some (abs ns))).

(** The files of a mapping: none when there is no such package, else one for every element of the chosen types. *)
Inductive saved_mapping (root : option string) (h : heap) (ws : nat) (m : mapping) : list file -> Prop :=
| saved_nothing : coll_find h ws (m_ref m) = Ok None -> saved_mapping root h ws m []
| saved_elements pkg o ns fs : coll_find h ws (m_ref m) = Ok (Some pkg) -> nth_error h pkg = Some o -> o_kind o = KPkg ->
    ns <> [] -> (forall n, In n ns -> valid_name n) -> calc_ref h pkg = Ok (Some (abs ns)) ->
    Forall2 (file_ok h root m ns (o_elements o)) (filter (m_type m) (o_elements o)) fs ->
    saved_mapping root h ws m fs.

(** Only packages of the workspace itself are configured: their parent is a workspace or a document, not a package. *)
Definition top_level (h : heap) (ws : nat) (ds : list docconf) : Prop :=
  forall dc r p, In dc ds -> In r (dc_refs dc) -> coll_find h ws r = Ok (Some p) -> exists c, parent_is h p (Some c) /\ has_kind KColl h c.

(** The documents of the configurations are different objects, and none is the workspace. *)
Definition own_documents (h : heap) (ws : nat) (ds : list docconf) : Prop :=
  NoDup (map dc_doc ds) /\ (forall dc, In dc ds -> has_kind KColl h (dc_doc dc) /\ dc_doc dc <> ws).
