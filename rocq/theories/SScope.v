(** What the names in a document stand for, as "Namespaces in XML 1.0" says, independently of how it is computed. *)
From Verif Require Import Base MNames MNum MXml SXml MNs SNs.
Local Open Scope string_scope.

(** The name of the attribute that declares a prefix ("" for the default namespace). *)
Definition declaring (p : string) : string := if String.eqb p "" then "xmlns" else "xmlns:" ++ p.
(** The prefix xml cannot be bound to anything else, nor anything else to its namespace; xmlns and its namespace cannot be
    bound at all; only the default namespace can be taken back. *)
Definition allowed (p u : string) : Prop := p <> "xmlns" /\ (p = "xml" <-> u = xml_uri) /\ u <> xmlns_uri /\ (u = "" -> p = "").
(** The namespace of a prefix at an element, given the attributes of the element and of those around it, from the inside
    out: the innermost declaration counts. *)
Inductive bound : list attrs -> string -> string -> Prop :=
| bound_xml c : bound c "xml" xml_uri
| bound_here a c p u : p <> "xml" -> In (declaring p, u) a -> bound (a :: c) p u
| bound_outer a c p u : p <> "xml" -> ~ In (declaring p) (map fst a) -> bound c p u -> bound (a :: c) p u.
(** Names of elements. *)
Inductive element_name (c : list attrs) : string -> string -> Prop :=
| element_prefixed p l u : prefix_ok p -> prefix_ok l -> bound c p u -> element_name c (p ++ ":" ++ l) ("{" ++ u ++ "}" ++ l)
| element_default l u : prefix_ok l -> bound c "" u -> u <> "" -> element_name c l ("{" ++ u ++ "}" ++ l)
| element_undone l : prefix_ok l -> bound c "" "" -> element_name c l l
| element_plain l : prefix_ok l -> (forall u, ~ bound c "" u) -> element_name c l l.
(** Attributes: those that are no declarations, in their order; the default namespace is not for them. *)
Inductive kept (c : list attrs) : attrs -> attrs -> Prop :=
| kept_nil : kept c [] []
| kept_declaration p u a b : p = "" \/ prefix_ok p -> allowed p u -> kept c a b -> kept c ((declaring p, u) :: a) b
| kept_plain n v a b : local_name n -> kept c a b -> kept c ((n, v) :: a) ((n, v) :: b)
| kept_prefixed p l u v a b : prefix_ok p -> p <> "xmlns" -> prefix_ok l -> bound c p u -> kept c a b ->
    kept c ((p ++ ":" ++ l, v) :: a) (("{" ++ u ++ "}" ++ l, v) :: b).
(** Elements: [means c x y]: inside elements with attributes [c], [x] has the names of [y]. *)
Inductive means : list attrs -> xml -> xml -> Prop :=
| means_elem c tag tag' a b t kids kids' tails :
    element_name (a :: c) tag tag' -> kept (a :: c) a b -> NoDup (map fst b) -> Forall2 (means (a :: c)) kids kids' ->
    means c (Elem tag a t kids tails) (Elem tag' b t kids' tails).
