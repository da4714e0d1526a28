(** Property theorems about ARXML text (C22, C23).
    Vocabulary: SXml.v.  The model of the writer's line machine and of the parser: MXml.v. *)
From Verif Require Import Base PBase MNames MNum MXml SXml PXml PXml2.

(** ** C22 *)

(** The sequence of writer calls for a tree never fails and emits exactly its layout: start and
    end tags match and nest, every line is indented by its depth. *)
Theorem C22_layout : forall step w, render step w = Ok (join newline (layout step 0 w)).
Proof. exact render_layout. Qed.

(** The same for a document: the XML declaration on a line of its own comes first. *)
Theorem C22_document_layout : forall step w,
  render_doc step w = Ok (join newline (declaration :: layout step 0 w)).
Proof. exact render_doc_layout. Qed.

(** Parsing the emitted text gives back the tree: tags, attributes, texts, children, in order. *)
Theorem C22_parse_back : forall step w, well w ->
  exists t, render step w = Ok t /\ parse t = Ok (element step 0 w).
Proof. exact parse_render. Qed.

Theorem C22_document_parse_back : forall step w, well w ->
  exists t, render_doc step w = Ok t /\ parse t = Ok (element step 0 w).
Proof. exact parse_render_doc. Qed.

(** No two different trees share their text. *)
Theorem C22_text_determines_tree : forall step w1 w2, well w1 -> well w2 ->
  render step w1 = render step w2 -> element step 0 w1 = element step 0 w2.
Proof.
  intros step w1 w2 S1 S2 E. destruct (parse_render step w1 S1) as (t & R1 & P1).
  destruct (parse_render step w2 S2) as (t' & R2 & P2). congruence.
Qed.

Definition c22_tree : wt :=
  Node "AR-PACKAGE" [("UUID", "a1")]
    [Leaf "SHORT-NAME" [] "Package"; Leaf "EMPTY" [] ""; Node "ELEMENTS" [] [Node "UNIT" [] [Leaf "SHORT-NAME" [] "m > s"]]].
Example C22_nonvacuous : well c22_tree.
Proof. apply safe_well, safeb_sound. reflexivity. Qed.

(** ** C23: false -- nothing is escaped.  Exactly the texts without '<', '&', "]]>", carriage
    returns and control characters survive. *)
Theorem C23_text_exact_partial : forall step tag a text, name_ok tag -> attrs_well a ->
  ((exists t, render step (Leaf tag a text) = Ok t /\ parse t = Ok (Elem tag a text [] [])) <-> safe_text text).
Proof.
  intros step tag a s N A. split.
  - intros (t & R & P). exact (leaf_text_exact step tag a s t N A R P).
  - intros S. apply (parse_render step (Leaf tag a s)). now constructor.
Qed.

(** Attribute values: exactly those without '<', '&', quotation marks, tabs, line breaks and control
    characters survive. *)
Theorem C23_attribute_exact_partial : forall step tag name value text, name_ok tag -> name_ok name -> safe_text text ->
  ((exists t, render step (Leaf tag [(name, value)] text) = Ok t /\ parse t = Ok (Elem tag [(name, value)] text [] [])) <-> safe_attr value).
Proof.
  intros step tag n v s N M S. split.
  - intros (t & R & P). exact (attr_exact step tag n v s t N M R P).
  - intros V. apply (parse_render step (Leaf tag [(n, v)] s)). constructor; auto. split; [repeat constructor; intros []|].
    intros n' v' [E|[]]. injection E as <- <-. auto.
Qed.

(** Text that looks like an element is read back as one. *)
Theorem C23_markup_injected : forall step tag a text b, name_ok tag -> attrs_well a -> safe_text text -> name_ok b ->
  exists t, render step (Leaf tag a (text ++ "<" ++ b ++ "/>")) = Ok t /\ parse t = Ok (Elem tag a text [Elem b [] "" [] []] [""]).
Proof. exact markup_injected. Qed.

(** The property as stated is therefore false: every text containing '<' or '&', wherever it
    stands, is not read back. *)
Theorem C23_refuted : forall step tag a s1 c s2, name_ok tag -> attrs_well a -> (c = "<"%char \/ c = "&"%char) ->
  ~ exists t, render step (Leaf tag a (s1 ++ String c s2)) = Ok t /\ parse t = Ok (Elem tag a (s1 ++ String c s2) [] []).
Proof.
  intros step tag a s1 c s2 N A C H. apply C23_text_exact_partial in H; auto. destruct H as [H _].
  induction s1 as [|x s1 IH]; cbn in H; [|now apply IH]. destruct H as [(H1 & H2 & _) _]. destruct C; congruence.
Qed.

(** '>' and quotation marks are harmless in text. *)
Example C23_gt_survives : safe_text "a > ""b""".
Proof. apply safe_textb_sound. reflexivity. Qed.
Example C23_amp_changes : exists t, render 2 (Leaf "DESC" [] "R&amp;D") = Ok t /\ parse t = Ok (Elem "DESC" [] "R&D" [] []).
Proof. eexists. split; reflexivity. Qed.
Example C23_lt_unreadable : exists t, render 2 (Leaf "DESC" [] "a < b") = Ok t /\ parse t = Err ParseError.
Proof. eexists. split; reflexivity. Qed.

Print Assumptions C22_layout.
Print Assumptions C22_document_layout.
Print Assumptions C22_parse_back.
Print Assumptions C22_document_parse_back.
Print Assumptions C22_text_determines_tree.
Print Assumptions C23_text_exact_partial.
Print Assumptions C23_attribute_exact_partial.
Print Assumptions C23_markup_injected.
Print Assumptions C23_refuted.
