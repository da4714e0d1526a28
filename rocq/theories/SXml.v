(** Specification vocabulary for ARXML text: layout, well-formed names, texts that need no
    escaping, and the element an emitted element stands for. *)
From Verif Require Import Base MNames MNum MXml.

(** Text that XML reproduces literally: no '<', '&', control character or carriage return, and
    no "]]>". *)
Fixpoint has (p s : string) : Prop :=
  (exists r, s = (p ++ r)%string) \/ match s with "" => False | String _ r => has p r end.
Definition plain_char (c : ascii) : Prop :=
  c <> "<"%char /\ c <> "&"%char /\ (32 <= nat_of_ascii c \/ nat_of_ascii c = 9 \/ nat_of_ascii c = 10)%nat.
Fixpoint all_chars (P : ascii -> Prop) (s : string) : Prop :=
  match s with "" => True | String c r => P c /\ all_chars P r end.
Definition safe_text (s : string) : Prop := all_chars plain_char s /\ ~ has "]]>" s.

(** Attribute values: in addition no quotation mark, tab or newline. *)
Definition safe_attr (s : string) : Prop :=
  all_chars (fun c => c <> "<"%char /\ c <> "&"%char /\ nat_of_ascii c <> 34 /\ 32 <= nat_of_ascii c)%nat s.

(** Tags and attribute names. *)
Definition name_ok (s : string) : Prop :=
  match s with "" => False | String c _ => name_start c = true end /\ all_chars (fun c => name_char c = true) s.
Definition attrs_well (a : attrs) : Prop :=
  NoDup (map fst a) /\ forall n v, In (n, v) a -> name_ok n /\ safe_attr v.

(** Elements whose names are well formed and whose texts need no escaping. *)
Inductive well : wt -> Prop :=
| well_leaf tag a text : name_ok tag -> attrs_well a -> safe_text text -> well (Leaf tag a text)
| well_line tag a text marks : name_ok tag -> attrs_well a -> safe_text text ->
    Forall (fun m => name_ok (mk_tag m) /\ attrs_well (mk_attrs m) /\ safe_text (mk_text m) /\ safe_text (mk_tail m)) marks ->
    well (Line tag a text marks)
| well_node tag a kids : name_ok tag -> attrs_well a -> Forall well kids -> well (Node tag a kids).

(** The same with names that neither have a prefix nor declare a namespace. *)
Definition local_name (s : string) : Prop := name_ok s /\ has_colon s = false /\ s <> "xmlns".
Definition attrs_ok (a : attrs) : Prop :=
  NoDup (map fst a) /\ forall n v, In (n, v) a -> local_name n /\ safe_attr v.
Inductive safe : wt -> Prop :=
| safe_leaf tag a text : local_name tag -> attrs_ok a -> safe_text text -> safe (Leaf tag a text)
| safe_line tag a text marks : local_name tag -> attrs_ok a -> safe_text text ->
    Forall (fun m => local_name (mk_tag m) /\ attrs_ok (mk_attrs m) /\ safe_text (mk_text m) /\ safe_text (mk_tail m)) marks ->
    safe (Line tag a text marks)
| safe_node tag a kids : local_name tag -> attrs_ok a -> Forall safe kids -> safe (Node tag a kids).

(** Start tag without its closing bracket. *)
Definition start (tag : string) (a : attrs) : string :=
  ("<" ++ tag ++ List.fold_right (fun p s => " " ++ fst p ++ "=" ++ quote ++ snd p ++ quote ++ s) "" a)%string.

(** An inline element and the text after it. *)
Definition inline (m : mark) : string :=
  match mk_text m with
  | "" => start (mk_tag m) (mk_attrs m) ++ "/>" ++ mk_tail m
  | text => start (mk_tag m) (mk_attrs m) ++ ">" ++ text ++ "</" ++ mk_tag m ++ ">" ++ mk_tail m
  end%string.

(** The lines of an element at nesting depth [d]: indented by [d] steps; children between the
    start and the end tag, one step deeper. *)
Fixpoint layout (step d : nat) (w : wt) : list string :=
  match w with
  | Leaf tag a "" => [spaces (d * step) ++ start tag a ++ "/>"]%string
  | Leaf tag a text => [spaces (d * step) ++ start tag a ++ ">" ++ text ++ "</" ++ tag ++ ">"]%string
  | Line tag a text marks =>
      [spaces (d * step) ++ start tag a ++ ">" ++ text
       ++ List.fold_right (fun m r => inline m ++ r) "" marks ++ "</" ++ tag ++ ">"]%string
  | Node tag a kids =>
      ((spaces (d * step) ++ start tag a ++ ">")%string
       :: List.concat (map (layout step (S d)) kids))
      ++ [(spaces (d * step) ++ "</" ++ tag ++ ">")%string]
  end.

(** What follows each of [n] children at depth [d]: the line break and the indentation of the next
    line, that of the next child or of the end tag. *)
Fixpoint indents (step d n : nat) : list string :=
  match n with
  | O => []
  | S O => [(newline ++ spaces (d * step))%string]
  | S k => (newline ++ spaces (S d * step))%string :: indents step d k
  end.

(** The element: same tag, attributes, text and children, inline elements with the text after
    them.  Between other tags there is only the line break and indentation. *)
Fixpoint element (step d : nat) (w : wt) : xml :=
  match w with
  | Leaf tag a text => Elem tag a text [] []
  | Line tag a text marks =>
      Elem tag a text (map (fun m => Elem (mk_tag m) (mk_attrs m) (mk_text m) [] []) marks) (map mk_tail marks)
  | Node tag a kids =>
      Elem tag a (newline ++ spaces ((match kids with [] => d | _ => S d end) * step))%string
           (map (element step (S d)) kids) (indents step d (List.length kids))
  end.
