(** C55: what is read does not depend on the order of the properties of an element, on elements nobody
    knows, on the order of attributes, or on the white space between elements.  Specification: SOrder.v. *)
From Coq Require Import Permutation.
From Verif Require Import Base PBase MNames MNum MXml MNs MEnum MRefTab MRef MCodec MArxml SOrder POrder POrder5.
Open Scope list_scope.

(** Documents that correspond are read alike: the same packages and elements or the same error, and the
    same schema version. *)
Theorem C55_document v stop x y : alike x y -> x_attrs x = x_attrs y -> read_root v stop x = read_root v stop y.
Proof. apply read_root_alike. Qed.
(** So are documents that have been rearranged ... *)
Theorem C55_rearranged_document v stop x y : rearranged x y -> x_attrs x = x_attrs y -> read_root v stop x = read_root v stop y.
Proof. intros H. now apply read_root_alike, rearranged_alike. Qed.
(** ... and their texts. *)
Theorem C55_text v stop s t x y : load s = Ok x -> load t = Ok y -> rearranged x y -> x_attrs x = x_attrs y -> read_str v s stop = read_str v t stop.
Proof. intros S T H A. unfold read_str. rewrite S, T. now apply C55_rearranged_document. Qed.
(** A rearranged element of a package is read as the same element or refused with the same error. *)
Theorem C55_element v tag read x y : read_collectable v tag = Some read -> rearranged x y -> read x = read y.
Proof. intros R H. now apply (read_collectable_respects v tag read R), rearranged_alike. Qed.
Theorem C55_package v stop x y : rearranged x y -> read_package v stop x = read_package v stop y.
Proof. intros H. now apply read_package_respects, rearranged_alike. Qed.
(** Properties of different names may stand in any order. *)
Theorem C55_any_order tag a s u k l : among sequence_tags tag = false -> Permutation k l -> NoDup (map x_tag k) ->
  rearranged (Elem tag a s k u) (Elem tag a s l u).
Proof.
  intros S P N. change k with ([] ++ k). change l with ([] ++ l). generalize (@nil xml). revert N. induction P as [|x k l P IH|x y k|k l m P IH P2 IH2]; intros N p; [apply r_same| | |].
  - inversion N; subst. specialize (IH H2 (p ++ [x])). now rewrite <- !app_assoc in IH.
  - apply r_swap; [exact S|]. cbn in N. inversion N as [|? ? I _]; subst. intros E. apply I. left. congruence.
  - eapply r_then; [now apply IH|]. apply IH2. eapply Permutation_NoDup; [|exact N]. now apply Permutation_map.
Qed.
(** Corresponding is an equivalence, and rearranging gives documents that correspond. *)
Theorem C55_equivalence : (forall x, alike x x) /\ (forall x y, alike x y -> alike y x) /\ (forall x y z, alike x y -> alike y z -> alike x z)
  /\ (forall x y, rearranged x y -> alike x y).
Proof. split; [exact alike_refl|]. split; [exact alike_sym|]. split; [exact alike_trans|exact rearranged_alike]. Qed.

(** ** The exceptions are needed *)
Definition root (a : attrs) : xml := Elem "AUTOSAR" a "" [] [].
(** Of two schema locations the last one counts. *)
Theorem C55_root_attributes_refuted : ~ (forall v stop x y, rearranged x y -> read_root v stop x = read_root v stop y).
Proof.
  assert (D : "a:schemaLocation"%string <> "b:schemaLocation"%string) by discriminate. intros C. specialize (C 51%N true (root ([] ++ ("a:schemaLocation", "AUTOSAR_00048.xsd") :: ("b:schemaLocation", "AUTOSAR_00049.xsd") :: []))
    (root ([] ++ ("b:schemaLocation", "AUTOSAR_00049.xsd") :: ("a:schemaLocation", "AUTOSAR_00048.xsd") :: [])) (r_attributes "AUTOSAR" _ _ _ _ _ _ "" [] [] D)).
  vm_compute in C. discriminate.
Qed.
Definition short (n : string) : xml := Elem "SHORT-NAME" [] n [] [""].
Definition unit_ (n : string) : xml := Elem "UNIT" [] "" [short n] [""].
Definition in_package (k : list xml) : xml := Elem "AUTOSAR" [] "" [Elem "AR-PACKAGES" [] "" [Elem "AR-PACKAGE" [] "" [short "P"; Elem "ELEMENTS" [] "" k []] []] []] [].
(** The elements of a package keep their order. *)
Theorem C55_sequence_refuted : read_root 51 true (in_package [unit_ "A"; unit_ "B"]) <> read_root 51 true (in_package [unit_ "B"; unit_ "A"]).
Proof. vm_compute. discriminate. Qed.
(** A list of unknown name before the value of a constant is taken for the value. *)
Definition constant (k : list xml) : xml := in_package [Elem "CONSTANT-SPECIFICATION" [] "" [short "C"; Elem "VALUE-SPEC" [] "" k []] []].
Definition one : xml := Elem "NUMERICAL-VALUE-SPECIFICATION" [] "" [Elem "VALUE" [] "1" [] []] [].
Theorem C55_unknown_in_sequence_refuted : among known_tags "NOTE" = false /\ snd (read_root 51 true (constant [one; Elem "NOTE" [] "" [] []])) = snd (read_root 51 true (constant [one])) /\
  (exists d, snd (read_root 51 true (constant [one])) = Ok d) /\ snd (read_root 51 true (constant [Elem "NOTE" [] "" [] []; one])) = Err KeyError.
Proof. split; [reflexivity|]. split; [reflexivity|]. split; [eexists; reflexivity|reflexivity]. Qed.

(** ** Examples *)
Definition tidy : string :=
  "<AUTOSAR><AR-PACKAGES><AR-PACKAGE><SHORT-NAME>P</SHORT-NAME><ELEMENTS><UNIT UUID=""u"" S=""s""><SHORT-NAME>Km</SHORT-NAME><FACTOR-SI-TO-UNIT>1000</FACTOR-SI-TO-UNIT><OFFSET-SI-TO-UNIT>0</OFFSET-SI-TO-UNIT></UNIT></ELEMENTS></AR-PACKAGE></AR-PACKAGES></AUTOSAR>".
Definition untidy : string :=
  "<AUTOSAR><ADMIN/><AR-PACKAGES><AR-PACKAGE><ELEMENTS>  <UNIT S=""s"" UUID=""u""><OFFSET-SI-TO-UNIT>0</OFFSET-SI-TO-UNIT> some text <FACTOR-SI-TO-UNIT>1000</FACTOR-SI-TO-UNIT><NOTE>x</NOTE><SHORT-NAME>Km</SHORT-NAME></UNIT></ELEMENTS><SHORT-NAME>P</SHORT-NAME></AR-PACKAGE></AR-PACKAGES></AUTOSAR>".
Ltac tree s := let t := eval vm_compute in (match load s with Ok x => x | Err _ => Elem "" [] "" [] [] end) in exact t.
Definition tidy_tree : xml := ltac:(tree tidy).
Definition untidy_tree : xml := ltac:(tree untidy).
Example C55_trees : load tidy = Ok tidy_tree /\ load untidy = Ok untidy_tree.
Proof. split; vm_compute; reflexivity. Qed.
Example C55_trees_rearranged : rearranged tidy_tree untidy_tree /\ x_attrs tidy_tree = x_attrs untidy_tree.
Proof.
  split; [|reflexivity]. unfold tidy_tree, untidy_tree. eapply r_then.
  - eapply (r_inside "AUTOSAR" [] "" [] _ _ []). eapply (r_inside "AR-PACKAGES" [] "" [] _ _ []).
    eapply r_then; [eapply (r_swap "AR-PACKAGE" [] "" [] _ _ []); [reflexivity|discriminate]|]. eapply (r_inside "AR-PACKAGE" [] "" [] _ _ [_]).
    eapply r_then; [eapply (r_white_space "ELEMENTS" _ _ "  " _ _ [""%string]); reflexivity|]. eapply (r_inside "ELEMENTS" [] "  " [] _ _ []).
    eapply r_then; [eapply (r_attributes "UNIT" [] "UUID" _ "S" _ []); discriminate|].
    eapply r_then; [apply (C55_any_order "UNIT" _ "" _ _ [Elem "OFFSET-SI-TO-UNIT" [] "0" [] []; Elem "FACTOR-SI-TO-UNIT" [] "1000" [] []; Elem "SHORT-NAME" [] "Km" [] []]); [reflexivity| |]|].
    + eapply perm_trans; [apply perm_swap|]. eapply perm_trans; [apply perm_skip, perm_swap|]. apply perm_swap.
    + repeat constructor; cbn; intuition discriminate.
    + eapply r_then; [eapply (r_unknown "UNIT" _ "" [_; _] (Elem "NOTE" [] "x" [] []) [_]); reflexivity|]. apply r_white_space. reflexivity.
  - eapply r_then; [eapply (r_unknown "AUTOSAR" [] "" [] (Elem "ADMIN" [] "" [] []) [_]); reflexivity|]. apply r_white_space. reflexivity.
Qed.
Example C55_tidy_is_untidy : (exists d, snd (read_str 51 tidy true) = Ok d) /\ read_str 51 tidy true = read_str 51 untidy true.
Proof.
  split; [eexists; vm_compute; reflexivity|]. destruct C55_trees_rearranged as [R A], C55_trees as [S T]. exact (C55_text 51 true _ _ _ _ S T R A).
Qed.

Print Assumptions C55_document.
Print Assumptions C55_text.
Print Assumptions C55_element.
Print Assumptions C55_package.
Print Assumptions C55_any_order.
Print Assumptions C55_equivalence.
Print Assumptions C55_root_attributes_refuted.
Print Assumptions C55_unknown_in_sequence_refuted.
