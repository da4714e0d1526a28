(** Which children a reading method may depend on. *)
From Verif Require Import Base MXml MReport MLook.
Open Scope list_scope.
Open Scope string_scope.

(** Two lists of children that give the same answers to the given calls of get, and have the same children of the given names *)
Definition agree (steps : list access) (all : list string) (k l : list xml) : Prop :=
  (forall t, In (Get t) steps -> get t k = get t l) /\ (forall t, In t all -> findall t k = findall t l).
(** The result depends on nothing but name, attributes, text and the children asked for ([u] and [w] is the text after each child). *)
Definition sees_only (m : method) : Prop := forall v tag a s k l u w, agree (m_steps m v tag) (m_all m) k l ->
  m_read m v (Elem tag a s k u) = m_read m v (Elem tag a s l w).
(** ** What becomes of a child *)
(** It is the first of its name, and that name is asked for, or all children of its name are. *)
Definition is_read (m : method) (v : N) (tag : string) (kids : list located) (c : located) : Prop :=
  (In (Get (l_tag c)) (m_steps m v tag) /\ exists before after, kids = (before ++ c :: after)%list /\ ~ In (l_tag c) (map l_tag before)) \/ In (l_tag c) (m_all m).
(** There is another child of the same name before it. *)
Definition is_repeated (kids : list located) (c : located) : Prop :=
  exists before after, kids = (before ++ c :: after)%list /\ In (l_tag c) (map l_tag before).
(** The children with other names *)
Definition others (name : string) (kids : list located) : list located := filter (fun d => negb (String.eqb name (l_tag d))) kids.
(** ** Names that make a difference: two lists of children that differ only in those of this name are read differently. *)
Definition matters (m : method) (v : N) (tag name : string) : Prop := exists k l, (forall t, t <> name -> findall t k = findall t l) /\
  m_read m v (Elem tag [] "" k []) <> m_read m v (Elem tag [] "" l []).
Definition uses_all (m : method) : Prop := forall v tag t, In (Get t) (m_steps m v tag) -> matters m v tag t.
