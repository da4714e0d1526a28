(** Proofs that readers do not see the order of properties: documents; changes that do not matter. *)
From Verif Require Import Base PBase MNames MNum MXml MEnum MRefTab MRef MCodec MElem0 MElem1 MElemA MElemB PElemB MElemC MElem2 MElemD MElem3 MElem4 MElemE MElem5 MElemF MArxml PArxml
  SOrder POrder POrder1 POrder2 POrder3 POrder4.
Open Scope list_scope.
Ltac splits := repeat match goal with |- _ /\ _ => split end.

(** ** Packages and documents *)
Lemma some_inj {A} (a b : A) : Some a = Some b -> a = b.
Proof. now injection 1. Qed.
Lemma read_collectable_respects v tag f : read_collectable v tag = Some f -> respects f.
Proof.
  unfold read_collectable. intros E x y H. repeat (match type of E with (if ?b then _ else _) = _ => destruct b end;
  [apply some_inj in E; subst f; cbv beta; apply bind_alike; [apply (fun R : respects _ => R x y H); auto with order nocore|intros; reflexivity]|]). discriminate.
Qed.
Lemma read_package_elements_alike v stop k l : Forall2 alike k l -> forall p, read_package_elements v stop p k = read_package_elements v stop p l.
Proof.
  induction 1 as [|x y k l H _ IH]; intros p; [reflexivity|]. cbn [read_package_elements]. rewrite <- (alike_tag x y H). destruct (read_collectable v (x_tag x)) as [f|] eqn:E; [|apply IH].
  rewrite (read_collectable_respects v _ f E x y H). destruct (let* e := f y in append_element p e) as [q|[]]; rewrite ?IH; reflexivity.
Qed.
Lemma read_sub_packages_alike self k l : Forall2 alike k l -> respects self -> forall p, read_sub_packages self p k = read_sub_packages self p l.
Proof.
  intros K S. induction K as [|x y k l H _ IH]; intros p; [reflexivity|]. cbn [read_sub_packages]. rewrite (S x y H). apply bind_alike; [reflexivity|intros q]. apply bind_alike; [reflexivity|intros r]. apply IH.
Qed.
Lemma read_package_respects v stop : respects (read_package v stop).
Proof.
  apply (recursive_respects (read_package_ v stop)); [apply read_package_local|]. intros self S x y H. unfold read_package_. cbv zeta. pose proof (alike_kids x y H) as K.
  apply bind_alike; [exact (read_ident_alike _ _ _ _ (alike_attrs x y H) K)|intros i]. apply bind_alike; [reflexivity|intros j]. apply bind_alike.
  - destruct (get_alike "ELEMENTS" _ _ eq_refl K) as [(a & b & -> & -> & L & T)|[-> ->]]; [|reflexivity]. apply read_package_elements_alike. apply alike_in_order; [exact L|now rewrite T].
  - intros p. destruct (get_alike "AR-PACKAGES" _ _ eq_refl K) as [(a & b & -> & -> & L & T)|[-> ->]]; [|reflexivity]. apply read_sub_packages_alike; [|exact S]. now apply (alike_kids a b L).
Qed.
Lemma read_packages_app v stop k l : forall m, read_packages v stop m (k ++ l) = let* n := read_packages v stop m k in read_packages v stop n l.
Proof.
  induction k as [|x k IH]; intros m; [reflexivity|]. cbn [read_packages app]. destruct (String.eqb (x_tag x) "AR-PACKAGE"); [|apply IH].
  destruct (read_package v stop x); cbn [bind]; [|reflexivity]. destruct (collection_append m a); cbn [bind]; [|reflexivity]. apply IH.
Qed.
Lemma read_packages_findall v stop k : forall m, read_packages v stop m k = read_packages v stop m (findall "AR-PACKAGE" k).
Proof.
  induction k as [|x k IH]; intros m; [reflexivity|]. unfold findall. cbn [read_packages filter]. rewrite String.eqb_sym. destruct (String.eqb "AR-PACKAGE" (x_tag x)) eqn:E; [|apply IH].
  cbn [read_packages]. rewrite String.eqb_sym, E. apply bind_alike; [reflexivity|intros p]. apply bind_alike; [reflexivity|intros n]. apply IH.
Qed.
Lemma read_packages_alike v stop k l : Forall2 alike k l -> forall m, read_packages v stop m k = read_packages v stop m l.
Proof.
  induction 1 as [|x y k l H _ IH]; intros m; [reflexivity|]. cbn [read_packages]. rewrite <- (alike_tag x y H), (read_package_respects v stop x y H). destruct (String.eqb _ _); [|apply IH].
  apply bind_alike; [reflexivity|intros p]. apply bind_alike; [reflexivity|intros n]. apply IH.
Qed.
Lemma read_root_alike v stop x y : alike x y -> x_attrs x = x_attrs y -> read_root v stop x = read_root v stop y.
Proof.
  intros H A. unfold read_root. cbv zeta. rewrite A. f_equal. apply bind_alike; [|reflexivity]. generalize (read_schema_version v (x_attrs y)). intros w.
  pose proof (alike_kids x y H "AR-PACKAGES" eq_refl) as K. generalize (@nil package). revert K. generalize (findall "AR-PACKAGES" (x_kids x)) (findall "AR-PACKAGES" (x_kids y)). clear H A.
  induction 1 as [|a b k l H _ IH]; intros m; [reflexivity|]. cbn [map List.concat]. rewrite !read_packages_app. apply bind_alike; [|exact IH].
  rewrite read_packages_findall, (read_packages_findall w stop (x_kids b)). apply read_packages_alike. now apply (alike_kids a b H).
Qed.

(** ** Alike is an equivalence *)
Lemma Forall2_diag {A} (R : A -> A -> Prop) l : (forall x, In x l -> R x x) -> Forall2 R l l.
Proof. induction l as [|x l IH]; intros H; constructor; [apply H; now left|apply IH; intros; apply H; now right]. Qed.
Lemma findall_incl name k x : In x (findall name k) -> In x k.
Proof. unfold findall. intros H. now apply filter_In in H. Qed.
Lemma alike_refl x : alike x x.
Proof.
  remember (height x) as n eqn:N. assert (B : (height x <= n)%nat) by lia. clear N. revert x B. induction n as [|n IH]; intros x B; [destruct x; cbn in B; lia|].
  assert (K : forall z, In z (x_kids x) -> alike z z) by (intros z I; apply IH; pose proof (height_kid z x I); lia).
  destruct x as [tag a s k u]. cbn [x_kids] in K. destruct (among sequence_tags tag) eqn:E.
  - apply alike_sequence; [exact E|now intros n'|auto|now apply Forall2_diag].
  - apply alike_properties; [exact E|now intros n'|auto|]. intros name _. apply Forall2_diag. intros z I. apply K. now apply findall_incl in I.
Qed.
Lemma Forall2_turn {A} (R : A -> A -> Prop) k l : Forall2 R k l -> (forall x y, In x k -> R x y -> R y x) -> Forall2 R l k.
Proof. induction 1 as [|x y k l H _ IH]; intros T; constructor; [apply T; [now left|exact H]|apply IH; intros; apply T; [now right|assumption]]. Qed.
Lemma Forall2_chain {A} (R : A -> A -> Prop) k l m : Forall2 R k l -> Forall2 R l m -> (forall x y z, In x k -> R x y -> R y z -> R x z) -> Forall2 R k m.
Proof.
  intros H. revert m. induction H as [|x y k l H _ IH]; intros m G T; inversion G as [|? z ? m' G1 G2]; subst; constructor; [eapply T; [now left|exact H|exact G1]|].
  apply IH; [exact G2|]. intros a b c I. apply T. now right.
Qed.
Lemma alike_sym x y : alike x y -> alike y x.
Proof.
  remember (height x) as n eqn:N. assert (B : (height x <= n)%nat) by lia. clear N. revert x y B. induction n as [|n IH]; intros x y B H; [destruct x; cbn in B; lia|].
  assert (K : forall z w, In z (x_kids x) -> alike z w -> alike w z) by (intros z w I; apply IH; pose proof (height_kid z x I); lia). clear IH B.
  destruct H as [tag a b s t k l u w S A T O|tag a b s t k l u w S A T O]; cbn [x_kids] in K.
  - apply alike_sequence; [exact S|intros m; symmetry; apply A|intros E; destruct (T E); auto|]. apply Forall2_turn; assumption.
  - apply alike_properties; [exact S|intros m; symmetry; apply A|intros E; destruct (T E); auto|]. intros name I. apply Forall2_turn; [now apply O|]. intros z v J. apply K. now apply findall_incl in J.
Qed.
Lemma alike_trans x y z : alike x y -> alike y z -> alike x z.
Proof.
  remember (height x) as n eqn:N. assert (B : (height x <= n)%nat) by lia. clear N. revert x y z B. induction n as [|n IH]; intros x y z B H G; [destruct x; cbn in B; lia|].
  assert (K : forall c d e, In c (x_kids x) -> alike c d -> alike d e -> alike c e) by (intros c d e I; apply IH; pose proof (height_kid c x I); lia). clear IH B.
  destruct H as [tag a b s t k l u w S A T O|tag a b s t k l u w S A T O]; cbn [x_kids] in K; inversion G as [? ? c ? r ? m ? q S' A' T' O'|? ? c ? r ? m ? q S' A' T' O']; subst; try congruence.
  - apply alike_sequence; [exact S|intros i; now rewrite A|intros E; destruct (T E), (T' E); split; congruence|]. eapply Forall2_chain; eassumption.
  - apply alike_properties; [exact S|intros i; now rewrite A|intros E; destruct (T E), (T' E); split; congruence|]. intros name I. eapply Forall2_chain; [now apply O|now apply O'|].
    intros c' d e J. apply K. now apply findall_incl in J.
Qed.

(** ** Changes *)
Lemma alike_same_kids k : Forall2 alike k k.
Proof. apply Forall2_diag. intros; apply alike_refl. Qed.
Lemma alike_make tag a b s t k l u w : same_attributes a b -> (among text_tags tag = true -> s = t /\ u = w) -> Forall2 alike k l -> alike (Elem tag a s k u) (Elem tag b t l w).
Proof.
  intros A T K. destruct (among sequence_tags tag) eqn:E; [now apply alike_sequence|]. apply alike_properties; auto. intros name _. now apply findall_alike.
Qed.
Lemma assoc_swap {A} a n p m q (b : list (string * A)) : n <> m -> forall name, assoc name (a ++ (n, p) :: (m, q) :: b) = assoc name (a ++ (m, q) :: (n, p) :: b).
Proof.
  intros D name. induction a as [|[i j] a IH]; cbn [app assoc].
  - destruct (String.eqb_spec name n), (String.eqb_spec name m); try reflexivity. congruence.
  - now rewrite IH.
Qed.
Lemma rearranged_alike x y : rearranged x y -> alike x y.
Proof.
  induction 1 as [tag a s k x y l u S D|tag a s k x l u S D|tag a s t k u w T|tag a n p m q b s k u D|tag a s k x y l u _ IH|x|x y _ IH|x y z _ IH _ IH2].
  - apply alike_properties; [exact S|now intros i|auto|]. intros name _. unfold findall. rewrite !filter_app. cbn [filter].
    replace ((if String.eqb name (x_tag x) then x :: (if String.eqb name (x_tag y) then y :: filter (fun e => String.eqb name (x_tag e)) l else filter (fun e => String.eqb name (x_tag e)) l)
      else if String.eqb name (x_tag y) then y :: filter (fun e => String.eqb name (x_tag e)) l else filter (fun e => String.eqb name (x_tag e)) l))
      with (if String.eqb name (x_tag y) then y :: (if String.eqb name (x_tag x) then x :: filter (fun e => String.eqb name (x_tag e)) l else filter (fun e => String.eqb name (x_tag e)) l)
      else if String.eqb name (x_tag x) then x :: filter (fun e => String.eqb name (x_tag e)) l else filter (fun e => String.eqb name (x_tag e)) l); [apply alike_same_kids|].
    destruct (String.eqb_spec name (x_tag x)), (String.eqb_spec name (x_tag y)); try reflexivity. congruence.
  - apply alike_properties; [exact S|now intros i|auto|]. intros name N. unfold findall. rewrite !filter_app. cbn [filter]. destruct (String.eqb_spec name (x_tag x)) as [->|_]; [congruence|apply alike_same_kids].
  - apply alike_make; [now intros i|congruence|apply alike_same_kids].
  - apply alike_make; [|auto|apply alike_same_kids]. intros name. now apply assoc_swap.
  - apply alike_make; [now intros i|auto|]. apply Forall2_app; [apply alike_same_kids|]. constructor; [exact IH|apply alike_same_kids].
  - apply alike_refl.
  - now apply alike_sym.
  - eapply alike_trans; eassumption.
Qed.
