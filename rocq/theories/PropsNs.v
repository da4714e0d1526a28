(** C69: which prefixes a document uses for its namespaces does not matter.  Specification: SNs.v. *)
From Verif Require Import Base PBase MNames MNum MXml SXml SSpell PXml PXml2 MNs SNs SScope PNs PNs2 PScope MEnum MRefTab MRef MCodec MElem0 MElem1 MElem2 MElem3 MElem4 MElem5 MArxml SArxml PArxml.
Local Open Scope string_scope.
Local Ltac splits := repeat match goal with |- _ /\ _ => split end.

(** Names are resolved as "Namespaces in XML" says: a text is accepted exactly if it spells a document whose names have a
    meaning, and that meaning is what is seen.  Specification: SScope.v. *)
Theorem C69_exact s y : parse_names s = Ok y <-> exists x, spelled_document x s /\ means [] x y.
Proof. apply names_iff. Qed.
(** Of this, the reader drops the namespace of ARXML and keeps every other. *)
Theorem C69_cleaned : (forall l, clean_tag ("{http://autosar.org/schema/r4.0}" ++ l) = l) /\
  (forall n, (~ exists l, n = "{http://autosar.org/schema/r4.0}" ++ l) -> clean_tag n = n) /\
  forall tag a t kids tails, clean_namespace (Elem tag a t kids tails) = Elem (clean_tag tag) a t (map clean_namespace kids) tails.
Proof.
  splits; [| |reflexivity].
  - intros l. unfold clean_tag. change ("{http://autosar.org/schema/r4.0}" ++ l) with (("{" ++ arxml_uri ++ "}") ++ l). now rewrite strip_app.
  - intros n H. unfold clean_tag. destruct (strip_prefix ("{" ++ arxml_uri ++ "}") n) as [l|] eqn:E; [|reflexivity]. exfalso. apply H. exists l. now apply strip_inv in E.
Qed.
(** A document is read the same when its prefixes are renamed, consistently and keeping different prefixes apart; the
    default namespace may become one with a prefix. *)
Theorem C69_rename v stop s t x y r : parse s = Ok x -> resolve [] x = Some y -> renaming r x -> parse t = Ok (rename r x) ->
  read_str v t stop = read_str v s stop.
Proof.
  intros S Y R T. unfold read_str, load, parse_names. now rewrite S, T, Y, (renaming_resolves r x y R Y).
Qed.
(** In particular the elements may have a prefix instead of standing in the default namespace. *)
Definition give_prefix (q p : string) : string := if String.eqb p "" then q else p.
Theorem C69_default_or_prefix v stop s t x y q : parse s = Ok x -> resolve [] x = Some y -> has_default x ->
  prefix_ok q -> q <> "xml" -> q <> "xmlns" -> ~ In q (prefixes x) -> parse t = Ok (rename (give_prefix q) x) ->
  read_str v t stop = read_str v s stop.
Proof.
  intros S Y D Q N1 N2 N3 T. apply (C69_rename v stop s t x y (give_prefix q)); auto. constructor; unfold give_prefix.
  - intros a b A B. destruct (String.eqb_spec a "") as [->|NA], (String.eqb_spec b "") as [->|NB]; auto; intros E; subst; contradiction.
  - intros p _ NP. apply String.eqb_neq in NP. rewrite NP. now left.
  - intros p _. destruct (String.eqb_spec p "") as [->|NP]; [|tauto]. split; [discriminate|contradiction].
  - right. cbn [String.eqb]. auto.
Qed.
(** A document of which no element has a namespace is read like the same document in the namespace of ARXML. *)
Theorem C69_no_namespace v stop s t tag a txt kids tails : parse s = Ok (Elem tag a txt kids tails) -> local_tree (Elem tag a txt kids tails) ->
  parse t = Ok (Elem tag (("xmlns", arxml_uri) :: a) txt kids tails) -> read_str v t stop = read_str v s stop.
Proof.
  intros S L T. unfold read_str, load, parse_names. rewrite S, T, (resolve_local _ L). inversion L as [? ? ? ? ? N A D K]; subst.
  assert (X : resolve [] (Elem tag (("xmlns", arxml_uri) :: a) txt kids tails) = Some (within arxml_uri (Elem tag a txt kids tails))).
  { cbn [resolve sort_attrs]. rewrite (sort_local a A). change (split_name "xmlns") with (Some ("", "xmlns")). cbn [String.eqb Ascii.eqb Bool.eqb andb]. change (declaration_ok "" arxml_uri) with true. cbv iota.
    unfold expand_tag. destruct N as (N & C & _). rewrite (split_local tag N C). cbn [String.eqb app]. rewrite (expand_local _ a D), (resolve_kids _ kids K). reflexivity. }
  rewrite X. now rewrite !clean_within by auto.
Qed.
(** Desired: a document in any other namespace is refused.  Refuted: every such document is read as a document
    without packages, in strict mode, too. *)
Definition unrelated (u : string) : Prop := u <> "" /\ u <> arxml_uri /\ u <> xml_uri /\ u <> xmlns_uri.
Theorem C69_other_namespace_refuted v stop s u tag a txt kids tails : unrelated u -> local_tree (Elem tag a txt kids tails) ->
  parse s = Ok (Elem tag (("xmlns", u) :: a) txt kids tails) ->
  read_str v s stop = (read_schema_version v a, Ok (mkDocument [] (read_schema_version v a))).
Proof.
  intros (U1 & U2 & U3 & U4) L S. unfold read_str, load, parse_names. rewrite S. inversion L as [? ? ? ? ? N A D K]; subst.
  assert (X : resolve [] (Elem tag (("xmlns", u) :: a) txt kids tails) = Some (within u (Elem tag a txt kids tails))).
  { cbn [resolve sort_attrs]. rewrite (sort_local a A). change (split_name "xmlns") with (Some ("", "xmlns")). cbn [String.eqb Ascii.eqb Bool.eqb andb].
    assert (DO : declaration_ok "" u = true) by (unfold declaration_ok; cbn [String.eqb]; apply String.eqb_neq in U3, U4; now rewrite U3, U4). rewrite DO.
    unfold expand_tag. destruct N as (N & C & _). rewrite (split_local tag N C). cbn [String.eqb app]. rewrite (expand_local _ a D), (resolve_kids _ kids K). reflexivity. }
  rewrite X. cbn [within clean_namespace]. unfold read_root. cbn [x_attrs x_kids].
  assert (F : findall "AR-PACKAGES" (map clean_namespace (map (within u) kids)) = []).
  { clear - U1 U2 K. induction kids as [|k kids IH]; [reflexivity|]. cbn [map]. unfold findall. cbn [filter]. fold (findall "AR-PACKAGES" (map clean_namespace (map (within u) kids))).
    rewrite IH by (intros; apply K; now right). assert (Kk := K k (or_introl eq_refl)). inversion Kk as [tag' a' t' kids' tails' N _ _ _]; subst. cbn [within clean_namespace x_tag].
    destruct (String.eqb_spec "AR-PACKAGES" (clean_tag (in_namespace u tag'))) as [E|_]; [|reflexivity]. exfalso. symmetry in E. revert E. apply other_tag; auto; [apply N|]. split; [reflexivity|repeat split]. }
  rewrite F. reflexivity.
Qed.
(** A prefix that is declared nowhere makes the text malformed: it is refused, whatever the prefix is used for. *)
Theorem C69_undeclared_prefix v stop s x p : parse s = Ok x -> In p (prefixes x) -> p <> "" -> p <> "xml" -> ~ In p (declared_prefixes x) ->
  read_str v s stop = (v, Err ParseError).
Proof.
  intros S I N1 N2 N3. unfold read_str, load, parse_names. rewrite S. destruct (resolve [] x) as [y|] eqn:R; [|reflexivity].
  exfalso. destruct (resolved_bound x [] y p R I) as [H|[H|[(u & H)|H]]]; auto. discriminate H.
Qed.
(** Whatever the writer writes is in the namespace of ARXML without any prefix but that of the schema location: a written
    document, with the elements under any other prefix, is read as the document. *)
Theorem C69_written d text x : good_document d -> write_file d = Ok text -> parse text = Ok x ->
  has_default x /\ (forall p, In p (prefixes x) -> p = "" \/ p = "xsi") /\ exists y, resolve [] x = Some y.
Proof.
  intros G W P. destruct (rt_root false d G) as (L & WD & S & _). destruct (document_well false d G) as (w & WD' & Q). rewrite WD in WD'. injection WD' as <-.
  destruct (parse_render_doc 2 _ Q) as (t & T & P'). unfold write_file, write_str in W. rewrite WD in W. cbn [bind] in W. rewrite W in T. injection T as <-. rewrite P in P'. injection P' as ->. clear P W WD.
  assert (K : forall k, In k (map (element 2 1) L) -> local_tree k).
  { intros k I. apply in_map_iff in I as (u & <- & I). apply safe_local. rewrite Forall_forall in S. auto. }
  assert (LT : forall k, local_tree k -> keeps_default k /\ forall p, In p (prefixes k) -> p = "").
  { intros k. induction k as [tag a t0 ks tl IH] using xml_ind'. intros H. inversion H as [? ? ? ? ? N A D KK]; subst. split.
    - constructor; [|intros c I; apply IH; auto]. intros I. destruct (A _ _ I) as (_ & _ & X). congruence.
    - intros p. cbn [prefixes]. unfold prefix_of_tag. destruct N as (_ & C & _). rewrite C. intros [I|I]; [auto|]. apply in_app_iff in I as [I|I].
      + exfalso. apply in_flat_map in I as ([n v] & I & J). destruct (A n v I) as (_ & C' & X). cbn [fst] in J. unfold prefixes_of_attr in J. apply String.eqb_neq in X. now rewrite X, strip_xmlns_local, C' in J.
      + apply in_flat_map in I as (c & I & J). eapply IH; eauto. }
  splits.
  - split; [exists arxml_uri; cbn; auto|]. cbn [element]. constructor; [|intros k I; apply LT; auto]. intros [I|[I|[I|[]]]]; discriminate I.
  - intros p. cbn [element prefixes]. intros [I|I]; [left; rewrite <- I; reflexivity|]. apply in_app_iff in I as [I|I].
    + cbn in I. intuition.
    + left. apply in_flat_map in I as (k & I & J). now apply (LT k (K k I)).
  - cbn [element]. destruct (load_root false (doc_schema_version d) (newline ++ spaces (match L with [] => 0 | _ :: _ => 1 end * 2)) (map (element 2 1) L) (indents 2 0 (List.length L)) K) as (y & Y & _). eauto.
Qed.

(** ** Examples *)
Definition root_text (attrs p : string) : string :=
  "<" ++ p ++ "AUTOSAR " ++ attrs ++ "><" ++ p ++ "AR-PACKAGES><" ++ p ++ "AR-PACKAGE><" ++ p ++ "SHORT-NAME>P</" ++ p ++ "SHORT-NAME></" ++ p ++ "AR-PACKAGE></" ++ p ++ "AR-PACKAGES></" ++ p ++ "AUTOSAR>".
Definition plainly : string := root_text "xmlns='http://autosar.org/schema/r4.0' xmlns:xsi='http://www.w3.org/2001/XMLSchema-instance' xsi:schemaLocation='http://autosar.org/schema/r4.0 AUTOSAR_00049.xsd'" "".
Definition prefixed : string := root_text "xmlns:AR='http://autosar.org/schema/r4.0' xmlns:xsi='http://www.w3.org/2001/XMLSchema-instance' xsi:schemaLocation='http://autosar.org/schema/r4.0 AUTOSAR_00049.xsd'" "AR:".
Definition plainly_tree : xml := ltac:(let t := eval vm_compute in (match parse plainly with Ok x => x | Err _ => Elem "" [] "" [] [] end) in exact t).
Example C69_prefixed : (exists d, read_str 51 plainly true = (49%N, Ok d) /\ List.length (doc_packages d) = 1%nat) /\ read_str 51 prefixed true = read_str 51 plainly true.
Proof.
  split; [eexists; split; [vm_compute; reflexivity|reflexivity]|].
  assert (S : parse plainly = Ok plainly_tree) by (vm_compute; reflexivity).
  assert (T : parse prefixed = Ok (rename (give_prefix "AR") plainly_tree)) by (vm_compute; reflexivity).
  destruct (resolve [] plainly_tree) as [y|] eqn:Y; [|vm_compute in Y; discriminate].
  apply (C69_default_or_prefix 51 true plainly prefixed plainly_tree y "AR" S Y); try discriminate; auto.
  - split; [eexists; left; reflexivity|]. unfold plainly_tree. repeat (constructor; [intros I; repeat (destruct I as [I|I]; [discriminate I|]); exact I|]; intros k K; repeat (destruct K as [<-|K]); try (destruct K; fail)).
  - split; [split; [reflexivity|repeat split]|reflexivity].
  - vm_compute. intros I. repeat (destruct I as [I|I]; [discriminate I|]). exact I.
Qed.
Example C69_meaning : exists x y, spelled_document x prefixed /\ means [] x y /\ x_tag x = "AR:AUTOSAR" /\ x_tag y = "{http://autosar.org/schema/r4.0}AUTOSAR".
Proof.
  destruct (parse_names prefixed) as [y|e] eqn:P; [|vm_compute in P; discriminate]. assert (Q := P). apply C69_exact in Q as (x & S & M). exists x, y. splits; auto.
  - apply PSpell.parse_iff in S. vm_compute in S. injection S as <-. reflexivity.
  - vm_compute in P. injection P as <-. reflexivity.
Qed.
(** A document of AUTOSAR 3 is read without an error, and nothing of it is there. *)
Definition older : string := root_text "xmlns='http://autosar.org/3.1.4'" "".
Example C69_older : exists x a txt kids tails, parse older = Ok (Elem x (("xmlns", "http://autosar.org/3.1.4") :: a) txt kids tails) /\
  kids <> [] /\ unrelated "http://autosar.org/3.1.4" /\ read_str 51 older true = (51%N, Ok (mkDocument [] 51)).
Proof.
  do 5 eexists. split; [vm_compute; reflexivity|]. split; [discriminate|]. split; [repeat split; discriminate|]. vm_compute; reflexivity.
Qed.
Example C69_undeclared : read_str 51 (root_text "" "AR:") true = (51%N, Err ParseError).
Proof. vm_compute; reflexivity. Qed.

Print Assumptions C69_exact.
Print Assumptions C69_cleaned.
Print Assumptions C69_rename.
Print Assumptions C69_default_or_prefix.
Print Assumptions C69_no_namespace.
Print Assumptions C69_other_namespace_refuted.
Print Assumptions C69_undeclared_prefix.
Print Assumptions C69_written.
