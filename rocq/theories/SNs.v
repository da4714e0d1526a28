(** Namespaces: what the names in a document stand for, and documents that differ in their prefixes only. *)
From Verif Require Import Base MNames MNum MXml SXml MNs.
Local Open Scope string_scope.

(** A prefix: a name without colon. *)
Definition prefix_ok (p : string) : Prop := name_ok p /\ has_colon p = false.

(** ** Elements without prefixes *)
Inductive local_tree : xml -> Prop :=
| local_elem tag a t kids tails : local_name tag -> (forall n v, In (n, v) a -> local_name n) -> NoDup (map fst a) ->
    (forall k, In k kids -> local_tree k) -> local_tree (Elem tag a t kids tails).

(** ** Renaming prefixes *)
(** A name with prefix. *)
Definition qualify (p l : string) : string := if String.eqb p "" then l else p ++ ":" ++ l.
Definition rename_tag (r : string -> string) (n : string) : string :=
  if has_colon n then let (p, l) := partition_at ":" n in qualify (r p) l else qualify (r "") n.
Definition rename_attr (r : string -> string) (n : string) : string :=
  if String.eqb n "xmlns" then if String.eqb (r "") "" then "xmlns" else "xmlns:" ++ r ""
  else match strip_prefix "xmlns:" n with
       | Some p => "xmlns:" ++ r p
       | None => if has_colon n then let (p, l) := partition_at ":" n in qualify (r p) l else n
       end.
Fixpoint rename (r : string -> string) (x : xml) : xml :=
  match x with
  | Elem tag a t kids tails => Elem (rename_tag r tag) (map (fun p => (rename_attr r (fst p), snd p)) a) t (map (rename r) kids) tails
  end.
(** The prefixes a document uses or declares. *)
Definition prefix_of_tag (n : string) : string := if has_colon n then fst (partition_at ":" n) else "".
Definition prefixes_of_attr (n : string) : list string :=
  if String.eqb n "xmlns" then [""]
  else match strip_prefix "xmlns:" n with
       | Some p => [p]
       | None => if has_colon n then [fst (partition_at ":" n)] else []
       end.
Fixpoint prefixes (x : xml) : list string :=
  match x with
  | Elem tag a _ kids _ => prefix_of_tag tag :: (flat_map (fun p => prefixes_of_attr (fst p)) a ++ flat_map prefixes kids)%list
  end.
(** The default namespace is declared at the root and nowhere taken back. *)
Inductive keeps_default : xml -> Prop :=
| keeps tag a t kids tails : ~ In ("xmlns", "") a -> (forall k, In k kids -> keeps_default k) -> keeps_default (Elem tag a t kids tails).
Definition has_default (x : xml) : Prop := (exists u, In ("xmlns", u) (x_attrs x)) /\ keeps_default x.
(** A renaming that keeps different prefixes apart. *)
Record renaming (r : string -> string) (x : xml) : Prop := {
  apart : forall p q, In p (prefixes x) -> In q (prefixes x) -> r p = r q -> p = q;
  proper : forall p, In p (prefixes x) -> p <> "" -> r p = p \/ (prefix_ok (r p) /\ r p <> "xmlns");
  fixed : forall p, In p (prefixes x) -> (p = "xml" <-> r p = "xml");
  default : r "" = "" \/ (prefix_ok (r "") /\ r "" <> "xmlns" /\ r "" <> "xml" /\ has_default x) }.

(** The prefixes declared anywhere in a document. *)
Fixpoint declared_prefixes (x : xml) : list string :=
  match x with
  | Elem _ a _ kids _ =>
    (flat_map (fun p => match strip_prefix "xmlns:" (fst p) with Some q => [q] | None => [] end) a ++ flat_map declared_prefixes kids)%list
  end.
