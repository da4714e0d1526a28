(** C76: which exceptions loading can end with. *)
From Verif Require Import Base PBase MNum MXml MEnum MRefTab MRef MCodec MElem0 MElem1 MElemA MElemB MElemC MElem2 MElemD MElem3 MElem4 MElemE MElem5 MElemF MNs MArxml PArxml MReport MLook MDispatch SRaise PRaise.
Open Scope list_scope.
Open Scope string_scope.

(** ** C76 *)
(** Whatever the text, loading it as a document ends with a document or with an exception of one of eight kinds. *)
Theorem C76_documents v text stop : (exists d, snd (read_str v text stop) = Ok d) \/ (exists e, snd (read_str v text stop) = Err e /\ In e reading_kinds).
Proof. destruct (snd (read_str v text stop)) as [d|e] eqn:E; [eauto|]. right. exists e. split; [reflexivity|]. now apply (e_read_str v text stop). Qed.
(** The same for single elements, with or without the name of a type, *)
Theorem C76_single_elements v text t : (exists o, read_str_elem v text t = Ok o) \/ (exists e, read_str_elem v text t = Err e /\ In e reading_kinds).
Proof. destruct (read_str_elem v text t) as [d|e] eqn:E; [eauto|]. right. exists e. split; [reflexivity|]. now apply (e_read_str_elem v text t). Qed.
(** and for every reading method, applied to any element. *)
Theorem C76_methods : Forall (fun m => forall v x, (exists a, m_read m v x = Ok a) \/ (exists e, m_read m v x = Err e /\ In e reading_kinds)) methods.
Proof.
  eapply Forall_impl; [|exact all_expected]. intros m H v x. specialize (H v x). destruct (m_read m v x) as [a|e] eqn:E; [eauto|]. right. exists e. split; [reflexivity|]. now apply H.
Qed.
(** In particular there is no element nested so deeply that a reading method does not come to an end, and no text of an enumeration is refused because of its version. *)
Theorem C76_never v text stop t e : snd (read_str v text stop) = Err e \/ read_str_elem v text t = Err e ->
  ~ In e [OutOfFuel; VersionError; IndexError; RuntimeError; DecimalInvalidOperation; InvalidReferenceError; UnboundLocalError].
Proof.
  intros [H|H] I; [apply (e_read_str v text stop) in H|apply (e_read_str_elem v text t) in H]; cbn in H, I; intuition (subst; discriminate).
Qed.

(** ** No kind can be left out *)
Definition packages_text (s : string) : string := "<AUTOSAR><AR-PACKAGES>" ++ s ++ "</AR-PACKAGES></AUTOSAR>".
Definition package_text (s : string) : string := packages_text ("<AR-PACKAGE><SHORT-NAME>P</SHORT-NAME>" ++ s ++ "</AR-PACKAGE>").
Definition text_of_kind (e : exn) : string :=
  match e with
  | ParseError => packages_text "<AR-PACKAGE></AR-PACKAGE>"
  | DuplicateElement => package_text "<AR-PACKAGES><AR-PACKAGE><SHORT-NAME>A</SHORT-NAME></AR-PACKAGE><AR-PACKAGE><SHORT-NAME>A</SHORT-NAME></AR-PACKAGE></AR-PACKAGES>"
  | KeyError => package_text "<DESC><L-2>text</L-2></DESC>"
  | ValueError => packages_text "<AR-PACKAGE><SHORT-NAME>A</SHORT-NAME></AR-PACKAGE><AR-PACKAGE><SHORT-NAME>A</SHORT-NAME></AR-PACKAGE>"
  | TypeError => package_text "<ADMIN-DATA></ADMIN-DATA>"
  | AttributeError => package_text "<ADMIN-DATA><SDGS><SDG GID=""g""></SDG></SDGS></ADMIN-DATA>"
  | AssertionError => package_text "<ELEMENTS><CODE><SHORT-NAME>C</SHORT-NAME></CODE></ELEMENTS>"
  | NotImplementedError => package_text "<DESC><L-2 L=""EN""><E>a<SUB>b</SUB></E></L-2></DESC>"
  | _ => ""
  end.
(** Each kind occurs, for well-formed texts, both when reading stops at errors and when it does not. *)
Theorem C76_every_kind e stop : In e reading_kinds -> exists text x, load text = Ok x /\ snd (read_str 51 text stop) = Err e.
Proof.
  intros I. exists (text_of_kind e). destruct stop; cbn in I; intuition subst; eexists; (split; [vm_compute; reflexivity|vm_compute; reflexivity]).
Qed.

(** ** Tolerant reading *)
Definition escaping_kinds : list exn := [KeyError; ValueError; TypeError; AttributeError; AssertionError; NotImplementedError].
Lemma tolerant_kinds v k e : forall p, read_package_elements v false p k = Err e -> In e escaping_kinds.
Proof.
  induction k as [|x k IH]; intros p; cbn [read_package_elements]; [discriminate|]. destruct (read_collectable v (x_tag x)) as [read|] eqn:R; [|apply IH].
  assert (H : expected (bind (read x) (fun a => append_element p a))) by (apply e_bind; [eapply e_read_collectable; eauto|]; intro; unfold append_element; kinds).
  destruct (bind (read x) _) as [q|e']; [apply IH|]. specialize (H e' eq_refl). cbn in H. destruct e'; try (intuition discriminate); try (intros [= <-]; cbn; tauto); apply IH.
Qed.
Definition text_in_unit (s : string) : xml :=
  match load ("<UNIT><SHORT-NAME>U</SHORT-NAME>" ++ s ++ "</UNIT>") with Ok x => x | Err _ => Elem "" [] "" [] [] end.
Definition element_of_kind (e : exn) : xml :=
  match e with
  | KeyError => text_in_unit "<DESC><L-2>text</L-2></DESC>"
  | ValueError => text_in_unit "<FACTOR-SI-TO-UNIT>a</FACTOR-SI-TO-UNIT>"
  | TypeError => text_in_unit "<ADMIN-DATA></ADMIN-DATA>"
  | AttributeError => text_in_unit "<ADMIN-DATA><SDGS><SDG GID=""g""></SDG></SDGS></ADMIN-DATA>"
  | AssertionError => Elem "CODE" [] "" [Elem "SHORT-NAME" [] "C" [] []] []
  | _ => text_in_unit "<DESC><L-2 L=""EN""><E>a<SUB>b</SUB></E></L-2></DESC>"
  end.
(** With stop_on_error off, the elements of a package can still end the reading of the document: with these six kinds of exceptions and no others. *)
Theorem C76_tolerant e : (exists v p k, read_package_elements v false p k = Err e) <-> In e escaping_kinds.
Proof.
  split; [intros (v & p & k & H); now apply (tolerant_kinds v k e p)|]. intros I. exists 51%N, (mkPackage (mkIdent "P" None None None None None None None) [] []), [element_of_kind e].
  cbn in I. intuition subst; vm_compute; reflexivity.
Qed.
(** So it is not enough to expect ParseError and DuplicateElement, the exceptions that the library defines for loading. *)
Theorem C76_only_parse_errors_refuted : ~ (forall v text x stop e, load text = Ok x -> snd (read_str v text stop) = Err e -> e = ParseError \/ e = DuplicateElement).
Proof.
  intros H. destruct (C76_every_kind KeyError true) as (text & x & L & R); [cbn; tauto|]. destruct (H _ _ _ _ _ L R); discriminate.
Qed.

(** ** Examples *)
Example C76_examples : snd (read_str 51 "no xml" true) = Err ParseError /\ read_str_elem 51 "<UNKNOWN/>" None = Err NotImplementedError /\
  read_str_elem 51 "<UNIT><SHORT-NAME>U</SHORT-NAME><OFFSET-SI-TO-UNIT/></UNIT>" None = Err TypeError /\ (exists d, snd (read_str 51 "<AUTOSAR/>" true) = Ok d).
Proof. repeat split; [vm_compute; reflexivity..|]. eexists. vm_compute. reflexivity. Qed.

Print Assumptions C76_documents.
Print Assumptions C76_single_elements.
Print Assumptions C76_methods.
Print Assumptions C76_never.
Print Assumptions C76_every_kind.
Print Assumptions C76_tolerant.
Print Assumptions C76_only_parse_errors_refuted.
