(** Specification vocabulary for configuration files (C49), independent of the functions of the
    model: what the entries of a parsed file mean. *)
From Verif Require Import Base MHeap SHeap MWork SWork MConfig.

(** As TOML demands, no key occurs twice in a table. *)
Inductive once : toml -> Prop :=
| on_text s : once (TText s)
| on_other : once TOther
| on_array l : Forall once l -> once (TArray l)
| on_table t : NoDup (map fst t) -> Forall (fun kv => once (snd kv)) t -> once (TTable t).

(** One text, or an array of texts. *)
Definition texts (v : toml) (l : list string) : Prop :=
  (exists s, v = TText s /\ l = [s]) \/ v = TArray (map TText l).

(** What lists packages: one text, an array of texts, or a table, whose keys count. *)
Definition package_list (v : toml) (l : list string) : Prop :=
  texts v l \/ exists t, v = TTable t /\ l = map fst t.

(** The entries of a section of the file; none if there is no such section. *)
Definition entries (cfg : list (string * toml)) (key : string) (l : list (string * toml)) : Prop :=
  In (key, TTable l) cfg \/ (~ In key (map fst cfg) /\ l = []).

(** The base reference of a namespace: the entry "base_ref", or "/" and the name. *)
Definition base_text (name : string) (t : list (string * toml)) (b : string) : Prop :=
  In ("base_ref", TText b) t \/ (~ In "base_ref" (map fst t) /\ b = ("/" ++ name)%string).

(** A proper namespace: all keys except "base_ref" denote roles, all values are texts (a
    namespace without roles may have any base). *)
Definition proper_namespace (v : toml) : Prop :=
  exists t, v = TTable t /\
    (forall k x, In (k, x) t -> k <> "base_ref" -> (exists ro, denotes k ro) /\ exists s, x = TText s) /\
    ((forall k, In k (map fst t) -> k = "base_ref") \/ (forall x, In ("base_ref", x) t -> exists b, x = TText b)).

(** The document configured by an entry of the section "document". *)
Definition configures_document (name : string) (v : toml) (path : string) (refs : list string) : Prop :=
  path = (name ++ ".arxml")%string /\
  exists t p, v = TTable t /\ In ("packages", p) t /\ package_list p refs.

(** The mapping configured by an entry of the section "document_mapping". *)
Definition configures_mapping (v : toml) (m : mapconf) : Prop :=
  exists t et, v = TTable t /\
    In ("package_ref", mc_ref m) t /\
    In ("element_types", et) t /\ texts et (mc_types m) /\ mc_types m <> [] /\
    (forall n, In n (mc_types m) -> In n element_classes \/ In n imported_classes \/ In n other_attributes) /\
    ((exists sf, In ("suffix_filters", sf) t /\ texts sf (mc_suffixes m)) \/
     (~ In "suffix_filters" (map fst t) /\ mc_suffixes m = [])).

(** Settings under which no method of the settings object is hidden. *)
Definition intact (s : settings) : Prop := forall n, In n method_names -> assoc n s = None.
